(** * Blending opaque 8-bit colours in binary32 (C159, C160) *)
From Coq Require Import ZArith QArith Reals Lra Lia List Bool.
From Flocq Require Import Core IEEE754.BinarySingleNaN.
From Verif Require Import Arith Outcome ColorModel GammaModel MatrixModel SpaceModel Heap Converter Calculation Blend F32 F32Facts RArith
  Spec Spec32 Laws NormalForms Alpha8 Core_Proofs Core2_Proofs Core3_Proofs Core4_Proofs Hue32 Spec_Matrix Spec_Conv Spec_Calc Spec_Blend Spec_Round
  Conv_Proofs Conv2_Proofs Run_Proofs Round_Proofs Round2_Proofs Error_Proofs Error2_Proofs Error4_Proofs Error5_Proofs Error7_Proofs Spec_Error
  Linear2_Proofs Curve_Proofs Lab8_Proofs Blend_Proofs Blend2_Proofs Spec_Byte.
Import ListNotations.
Local Open Scope R_scope.
Local Notation fin x := (is_finite x = true).

Lemma clamp_lip a b e : Rabs (a - b) <= e -> Rabs (Rmax 0 (Rmin 1 a) - Rmax 0 (Rmin 1 b)) <= e.
Proof.
  intros H. apply Rabs_le_inv in H. apply Rabs_le. unfold Rmax, Rmin.
  destruct (Rle_dec 1 a), (Rle_dec 1 b); repeat match goal with |- context [Rle_dec ?x ?y] => destruct (Rle_dec x y) end; lra.
Qed.
Lemma clamp01 t : 0 <= Rmax 0 (Rmin 1 t) <= 1.
Proof. split; [apply Rmax_l|apply Rmax_lub; [lra|apply Rmin_l]]. Qed.

Section B.
Variable o : oracle.
Local Notation "x +. y" := (@fadd f32 (F32 o) x y) (at level 50, left associativity).
Local Notation "x -. y" := (@fsub f32 (F32 o) x y) (at level 50, left associativity).
Local Notation "x *. y" := (@fmul f32 (F32 o) x y) (at level 40, left associativity).
Local Notation "x /. y" := (@fdiv f32 (F32 o) x y) (at level 40, left associativity).
Local Notation "$ n" := (fz (H := F32 o) n) (at level 2).

(** ** From an error bound to the nearest byte *)

(** [good f t]: the clamped float is close to the clamped exact value [t], closer than
    any odd multiple of half a unit that [255 * t] could miss; and the float itself is
    close to [t]. *)
Definition good (f : f32) (t : R) : Prop := near f t (1402 * u) /\ exists e D K, (1 <= D)%Z /\ 255 * Rmax 0 (Rmin 1 t) = IZR K / IZR D /\ 0 <= e <= 1 / 512 /\
  2 * IZR D * (255 * e + 300 * u) < 1 /\ Rabs (unit_clamp f - Rmax 0 (Rmin 1 t)) <= e.

Lemma clamp_frac t K D : (1 <= D)%Z -> 255 * t = IZR K / IZR D -> exists K', 255 * Rmax 0 (Rmin 1 t) = IZR K' / IZR D.
Proof.
  intros HD E. assert (P : 1 <= IZR D) by (apply IZR_le; lia). unfold Rmax, Rmin. destruct (Rle_dec 1 t).
  - destruct (Rle_dec 0 1); [|lra]. exists (255 * D)%Z. rewrite mult_IZR. field. lra.
  - destruct (Rle_dec 0 t); [exists K; exact E|]. exists 0%Z. field. lra.
Qed.
Lemma good_near f t e D K : near f t e -> (1 <= D)%Z -> 255 * t = IZR K / IZR D -> 0 <= e <= 1402 * u -> 2 * IZR D * (255 * e + 300 * u) < 1 -> good f t.
Proof.
  intros [Ff N] HD E He L. split; [split; [exact Ff|lra]|]. destruct (clamp_frac t K D HD E) as [K' E']. exists e, D, K'. do 2 (split; [assumption|]). split; [num|]. split; [exact L|].
  rewrite unit_clamp_fin by exact Ff. apply clamp_lip, N.
Qed.
(** Polynomials in the two bytes. *)
Lemma good_poly f t K : near f t (40 * u) -> 255 * 255 * t = IZR K -> good f t.
Proof.
  intros N E. apply (good_near f t (40 * u) 255 K N); [lia| | |]; [|num|num].
  rewrite <- E. field.
Qed.
(** Quotients of two bytes. *)
Lemma good_quot f t k K : (1 <= k <= 255)%Z -> near f t (1400 * u / IZR k + 2 * u) -> 255 * t = IZR K / IZR k -> good f t.
Proof.
  intros Hk N E. assert (P : 1 <= IZR k <= 255) by (split; [apply (IZR_le 1)|apply (IZR_le k 255)]; lia).
  assert (I : 0 < / IZR k <= 1). { split; [apply Rinv_0_lt_compat; lra|]. rewrite <- Rinv_1. apply Rinv_le_contravar; lra. }
  apply (good_near f t _ k K N); [lia|exact E| |].
  - unfold Rdiv. set (i := / IZR k) in * . clearbody i. num.
  - replace (2 * IZR k * (255 * (1400 * u / IZR k + 2 * u) + 300 * u)) with (2 * (255 * 1400) * u + 2 * IZR k * (810 * u)) by (field; lra). num.
Qed.
Lemma good_exact f t n : near f t (1402 * u) -> unit_clamp f = Rmax 0 (Rmin 1 t) -> 255 * Rmax 0 (Rmin 1 t) = IZR n -> good f t.
Proof.
  intros NR E N. split; [exact NR|]. exists 0, 1%Z, n. split; [lia|]. split; [rewrite N; field|]. split; [lra|]. split; [num|]. rewrite E.
  replace (_ - _) with 0 by ring. rewrite Rabs_R0. lra.
Qed.

Lemma good_byte f t w : good f t -> is_value w (unit_clamp f) ->
  nearest_byte (255 * Rmax 0 (Rmin 1 t)) (@c255 f32 (F32 o) (@fround f32 (F32 o) (w *. $255))).
Proof.
  intros [_ [e [D [K [HD [E [He [L N]]]]]]]] [Fw Vw]. set (v := Rmax 0 (Rmin 1 t)) in * .
  assert (Bv : 0 <= v <= 1) by apply clamp01. clearbody v.
  assert (Nw : near w (255 * v / 255) e). { split; [exact Fw|]. replace (255 * v / 255) with v by field. change (fval w) with (B2R w). rewrite Vw. exact N. }
  destruct (to_byte o w (255 * v) e Nw ltac:(lra) He) as [z [Bz [Vz Hz]]]. exists z. split; [exact Bz|]. split; [exact Vz|].
  assert (P : 1 <= IZR D) by (apply IZR_le; lia). rewrite E in * .
  assert (Q : Rabs (IZR (2 * D * z - 2 * K)) < IZR (D + 1)).
  { rewrite minus_IZR, !mult_IZR, plus_IZR. replace (2 * IZR D * IZR z - 2 * IZR K) with (2 * IZR D * (IZR z - IZR K / IZR D)) by (field; lra).
    rewrite Rabs_mult, (Rabs_pos_eq (2 * IZR D)) by lra.
    apply Rle_lt_trans with (2 * IZR D * (/ 2 + 255 * e + 300 * u)); [apply Rmult_le_compat_l; lra|]. lra. }
  rewrite <- abs_IZR in Q. apply lt_IZR in Q. assert (Q' : (Z.abs (2 * D * z - 2 * K) <= D)%Z) by lia. apply IZR_le in Q'. rewrite abs_IZR in Q'.
  apply (Rmult_le_reg_l (2 * IZR D)); [lra|]. rewrite <- (Rabs_pos_eq (2 * IZR D)) at 1 by lra. rewrite <- Rabs_mult.
  replace (2 * IZR D * (IZR z - IZR K / IZR D)) with (IZR (2 * D * z - 2 * K)) by (rewrite minus_IZR, !mult_IZR; field; lra). lra.
Qed.

(** ** The blend functions on two bytes *)
Section Two.
Variables (s d : Z) (x y : f32).
Hypothesis (Hs : is_byte s) (Hd : is_byte d) (Ux : unitf x) (Uy : unitf y) (Ex : fval x = q255 s) (Ey : fval y = q255 d).
Local Notation S1 := (IZR s / 255).
Local Notation D1 := (IZR d / 255).

Lemma Ss : 0 <= S1 <= 1.
Proof. unfold is_byte in * . assert (0 <= IZR s <= 255) by (split; [apply (IZR_le 0)|apply (IZR_le s 255)]; lia). lra. Qed.
Lemma Ds : 0 <= D1 <= 1.
Proof. unfold is_byte in * . assert (0 <= IZR d <= 255) by (split; [apply (IZR_le 0)|apply (IZR_le d 255)]; lia). lra. Qed.
Lemma nx : near x S1 (11 / 10 * u).
Proof. split; [apply Ux|]. rewrite Ex. apply q255_near, Hs. Qed.
Lemma ny : near y D1 (11 / 10 * u).
Proof. split; [apply Uy|]. rewrite Ey. apply q255_near, Hd. Qed.
Lemma n1 : near $1 1 0.
Proof. apply near_fz. sm. Qed.
Lemma n2 : near $2 2 0.
Proof. apply near_fz. sm. Qed.
Lemma SDs : 0 <= S1 * D1 <= 1.
Proof. pose proof Ss. pose proof Ds. split; [apply Rmult_le_pos; lra|]. rewrite <- (Rmult_1_r 1). apply Rmult_le_compat; lra. Qed.
Ltac absl := apply Rabs_le; pose proof Ss; pose proof Ds; pose proof SDs; lra.

Lemma g_normal : good x S1.
Proof. apply (good_poly x S1 (255 * s)); [eapply near_weaken; [apply nx|num]|]. rewrite mult_IZR. field. Qed.
Lemma g_multiply : good (x *. y) (S1 * D1).
Proof.
  apply (good_poly _ _ (s * d)); [|rewrite mult_IZR; field].
  eapply near_weaken; [apply (near_mul o x y S1 D1 _ _ 1 1 1 nx ny)|]; try absl; num.
Qed.
Lemma g_add : good (x +. y) (S1 + D1).
Proof.
  apply (good_poly _ _ (255 * (s + d))); [|rewrite mult_IZR, plus_IZR; field].
  eapply near_weaken; [apply (near_add o x y _ _ _ _ 2 nx ny)|]; try absl; num.
Qed.
Lemma n_add1 : near (x +. y -. $1) (S1 + D1 - 1) (40 * u).
Proof.
  eapply near_weaken; [apply (near_sub o (x +. y) $1 _ _ (10 * u) 0 1)|]; [|apply n1|absl|num|num].
  eapply near_weaken; [apply (near_add o x y _ _ _ _ 2 nx ny)|]; try absl; num.
Qed.
Lemma g_sub : good (x -. y) (S1 - D1).
Proof.
  apply (good_poly _ _ (255 * (s - d))); [|rewrite mult_IZR, minus_IZR; field].
  eapply near_weaken; [apply (near_sub o x y _ _ _ _ 1 nx ny)|]; try absl; num.
Qed.
Lemma g_darken : good (@fmin f32 (F32 o) x y) (Rmin S1 D1).
Proof.
  apply (good_poly _ _ (255 * Z.min s d)).
  - eapply near_weaken; [apply near_min; [apply nx|apply ny]|num].
  - rewrite mult_IZR. destruct (Z.min_spec s d) as [[L ->]|[L ->]].
    + rewrite Rmin_left; [field|]. apply IZR_lt in L. lra.
    + rewrite Rmin_right; [field|]. apply IZR_le in L. lra.
Qed.
Lemma g_lighten : good (@fmax f32 (F32 o) x y) (Rmax S1 D1).
Proof.
  apply (good_poly _ _ (255 * Z.max s d)).
  - eapply near_weaken; [apply near_max; [apply nx|apply ny]|num].
  - rewrite mult_IZR. destruct (Z.max_spec s d) as [[L ->]|[L ->]].
    + rewrite Rmax_right; [field|]. apply IZR_lt in L. lra.
    + rewrite Rmax_left; [field|]. apply IZR_le in L. lra.
Qed.
Lemma one_less z v Z1 : near z Z1 (11 / 10 * u) -> 0 <= Z1 <= 1 -> v = 1 - Z1 -> near ($1 -. z) v (23 / 10 * u).
Proof.
  intros N B ->. eapply near_weaken; [apply (near_sub o $1 z _ _ _ _ 1 n1 N)|]; [apply Rabs_le; lra|num|num].
Qed.
End Two.

Section Two'.
Variables (s d : Z) (x y : f32).
Hypothesis (Hs : is_byte s) (Hd : is_byte d) (Ux : unitf x) (Uy : unitf y) (Ex : fval x = q255 s) (Ey : fval y = q255 d).
Local Notation S1 := (IZR s / 255).
Local Notation D1 := (IZR d / 255).
Let ss := Ss s Hs.
Let ds := Ds d Hd.
Let sd := SDs s d Hs Hd.
Let NX : near x S1 (11 / 10 * u) := nx s x Hs Ux Ex.
Let NY : near y D1 (11 / 10 * u) := ny d y Hd Uy Ey.
Ltac absl := apply Rabs_le; pose proof ss; pose proof ds; pose proof sd; lra.

Lemma mul_box a b : 0 <= a <= 1 -> 0 <= b <= 1 -> 0 <= a * b <= 1.
Proof. intros A B. split; [apply Rmult_le_pos; lra|]. rewrite <- (Rmult_1_r 1). apply Rmult_le_compat; lra. Qed.

Lemma g_screen : good (@screen_func f32 (F32 o) x y) (S1 + D1 - S1 * D1).
Proof.
  unfold screen_func. apply (good_poly _ _ (255 * (s + d) - s * d)); [|rewrite minus_IZR, !mult_IZR, plus_IZR; field].
  replace (S1 + D1 - S1 * D1) with (1 - (1 - D1) * (1 - S1)) by ring.
  pose proof (mul_box (1 - D1) (1 - S1) ltac:(lra) ltac:(lra)).
  eapply near_weaken; [apply (near_sub o _ _ _ _ 0 (10 * u) 1 n1)|]; [|apply Rabs_le; lra|num|num].
  eapply near_weaken; [apply (near_mul o _ _ _ _ _ _ 1 1 1 (one_less y _ D1 NY ds eq_refl) (one_less x _ S1 NX ss eq_refl))|]; try (apply Rabs_le; lra); num.
Qed.
Lemma g_exclusion : good (@exclusion_func f32 (F32 o) x y) (S1 + D1 - 2 * S1 * D1).
Proof.
  unfold exclusion_func. apply (good_poly _ _ (255 * (s + d) - 2 * s * d)); [|rewrite minus_IZR, !mult_IZR, plus_IZR; field].
  replace (S1 + D1 - 2 * S1 * D1) with ((D1 + S1) - (2 * D1) * S1) by ring.
  assert (0 <= 2 * D1 * S1 <= 2) by lra.
  eapply near_weaken; [apply (near_sub o _ _ _ _ (10 * u) (20 * u) 2)|]; [| |absl|num|num].
  - eapply near_weaken; [apply (near_add o _ _ _ _ _ _ 2 NY NX)|]; try absl; num.
  - eapply near_weaken; [apply (near_mul o _ _ _ _ (6 * u) _ 2 1 2) with (2 := NX)|]; try absl; try num.
    eapply near_weaken; [apply (near_mul o _ _ _ _ _ _ 2 1 2 n2 NY)|]; try absl; num.
Qed.
Lemma g_difference : good (@difference_func f32 (F32 o) x y) (Rabs (S1 - D1)).
Proof.
  unfold difference_func. rewrite Rabs_minus_sym. apply (good_poly _ _ (255 * Z.abs (d - s))).
  - apply near_abs. eapply near_weaken; [apply (near_sub o _ _ _ _ _ _ 1 NY NX)|]; try absl; num.
  - rewrite mult_IZR, abs_IZR, minus_IZR. replace (D1 - S1) with ((IZR d - IZR s) * / 255) by (unfold Rdiv; ring).
    rewrite Rabs_mult, (Rabs_pos_eq (/ 255)) by lra. field.
Qed.

(** Comparison of a byte with one half. *)
Lemma half_cases : (@fle f32 (F32 o) x (@half f32 (F32 o)) = true /\ S1 <= 1 / 2 /\ (s <= 127)%Z) \/
  (@fle f32 (F32 o) x (@half f32 (F32 o)) = false /\ 1 / 2 < S1 /\ (128 <= s)%Z).
Proof.
  destruct (half32 o) as [[Fh _] Vh]. pose proof (near_range _ _ _ NX) as R1. cbn [fle F32].
  destruct (leb_cases x (@half f32 (F32 o)) (proj1 Ux) Fh) as [[E L]|[E L]]; rewrite E, Vh in *; [left|right].
  - assert (IZR s < 128) by num. apply lt_IZR in H. split; [reflexivity|]. split; [|lia]. assert (IZR s <= 127) by (apply IZR_le; lia). lra.
  - assert (127 < IZR s) by num. apply lt_IZR in H. split; [reflexivity|]. split; [|lia]. assert (128 <= IZR s) by (apply IZR_le; lia). lra.
Qed.
Lemma nh : near (@half f32 (F32 o)) (1 / 2) 0.
Proof. exact (lit_half o). Qed.
Lemma g_hard : good (@hard_light_func f32 (F32 o) x y) (hard_light S1 D1).
Proof.
  unfold hard_light_func, hard_light. destruct half_cases as [[-> [L _]]|[-> [L _]]].
  - destruct (Rle_dec S1 (1 / 2)) as [_|N]; [|lra]. apply (good_poly _ _ (2 * s * d)); [|rewrite !mult_IZR; field].
    replace (2 * S1 * D1) with (D1 * 2 * S1) by ring.
    eapply near_weaken; [apply (near_mul o _ _ _ _ (6 * u) _ 2 1 2) with (2 := NX)|]; try absl; try num.
    eapply near_weaken; [apply (near_mul o _ _ _ _ _ _ 1 2 2 NY n2)|]; try absl; num.
  - destruct (Rle_dec S1 (1 / 2)) as [N|_]; [lra|]. apply (good_poly _ _ (65025 - 2 * (255 - s) * (255 - d))); [|rewrite !minus_IZR, !mult_IZR, !minus_IZR; field].
    replace (1 - 2 * (1 - S1) * (1 - D1)) with (1 - (1 - D1) * (1 - 2 * (S1 - 1 / 2))) by field.
    pose proof (mul_box (1 - D1) (1 - 2 * (S1 - 1 / 2)) ltac:(lra) ltac:(lra)).
    eapply near_weaken; [apply (near_sub o _ _ _ _ 0 (20 * u) 1 n1)|]; [|apply Rabs_le; lra|num|num].
    eapply near_weaken; [apply (near_mul o _ _ _ _ _ (10 * u) 1 1 1 (one_less y _ D1 NY ds eq_refl))|]; try (apply Rabs_le; lra); try num.
    eapply near_weaken; [apply (near_sub o _ _ _ _ 0 (6 * u) 1 n1)|]; try (apply Rabs_le; lra); try num.
    eapply near_weaken; [apply (near_mul o _ _ _ _ 0 (22 / 10 * u) 2 1 1 n2)|]; try (apply Rabs_le; lra); try num.
    eapply near_weaken; [apply (near_sub o _ _ _ _ _ _ 1 NX nh)|]; try (apply Rabs_le; lra); num.
Qed.
(** [2 * (s - 0.5)] *)
Lemma n_twice : 1 / 2 < S1 -> near ($2 *. (x -. @half f32 (F32 o))) (2 * S1 - 1) (6 * u).
Proof.
  intros L. replace (2 * S1 - 1) with (2 * (S1 - 1 / 2)) by field.
  eapply near_weaken; [apply (near_mul o _ _ _ _ 0 (22 / 10 * u) 2 1 1 n2)|]; try (apply Rabs_le; lra); try num.
  eapply near_weaken; [apply (near_sub o _ _ _ _ _ _ 1 NX nh)|]; try (apply Rabs_le; lra); num.
Qed.
Lemma n_double : near ($2 *. x) (2 * S1) (5 * u).
Proof. eapply near_weaken; [apply (near_mul o _ _ _ _ _ _ 2 1 2 n2 NX)|]; try absl; num. Qed.
Lemma g_linear_light : good (@linear_light_func f32 (F32 o) x y) (D1 + 2 * S1 - 1).
Proof.
  unfold linear_light_func. apply (good_poly _ _ (255 * (d + 2 * s - 255))); [|rewrite mult_IZR, minus_IZR, plus_IZR, mult_IZR; field].
  destruct half_cases as [[-> [L _]]|[-> [L _]]].
  - eapply near_weaken; [apply (near_sub o _ _ _ _ (15 * u) 0 2) with (2 := n1)|]; [|absl|num|num].
    eapply near_weaken; [apply (near_add o _ _ _ _ _ _ 3 NY n_double)|]; try absl; num.
  - replace (D1 + 2 * S1 - 1) with (D1 + (2 * S1 - 1)) by ring.
    eapply near_weaken; [apply (near_add o _ _ _ _ _ _ 2 NY (n_twice L))|]; try absl; num.
Qed.
Lemma g_pin : good (@pin_light_func f32 (F32 o) x y) (if Rle_dec S1 (1 / 2) then Rmin D1 (2 * S1) else Rmax D1 (2 * S1 - 1)).
Proof.
  unfold pin_light_func. destruct half_cases as [[-> [L _]]|[-> [L _]]].
  - destruct (Rle_dec S1 (1 / 2)) as [_|N]; [|lra]. apply (good_poly _ _ (255 * Z.min d (2 * s))).
    + apply near_min; (eapply near_weaken; [first [exact NY|exact n_double]|num]).
    + rewrite mult_IZR. destruct (Z.min_spec d (2 * s)) as [[Q ->]|[Q ->]].
      * rewrite Rmin_left; [field|]. apply IZR_lt in Q. rewrite mult_IZR in Q. lra.
      * rewrite Rmin_right; [rewrite mult_IZR; field|]. apply IZR_le in Q. rewrite mult_IZR in Q. lra.
  - destruct (Rle_dec S1 (1 / 2)) as [N|_]; [lra|]. apply (good_poly _ _ (255 * Z.max d (2 * s - 255))).
    + apply near_max; (eapply near_weaken; [first [exact NY|exact (n_twice L)]|num]).
    + rewrite mult_IZR. destruct (Z.max_spec d (2 * s - 255)) as [[Q ->]|[Q ->]].
      * apply IZR_lt in Q. rewrite minus_IZR, mult_IZR in * . rewrite Rmax_right by lra. field.
      * apply IZR_le in Q. rewrite minus_IZR, mult_IZR in Q. rewrite Rmax_left by lra. field.
Qed.

End Two'.

(** A quotient of two bytes, at most 1. *)
Lemma near_ratio a b A k : (1 <= k <= 255)%Z -> near a A (11 / 10 * u) -> near b (IZR k / 255) (23 / 10 * u) -> 0 <= A <= IZR k / 255 ->
  near (a /. b) (A / (IZR k / 255)) (1400 * u / IZR k + 2 * u).
Proof.
  intros Hk [Fa Na] [Fb Nb] HA. assert (P : 1 <= IZR k <= 255) by (split; [apply (IZR_le 1)|apply (IZR_le k 255)]; lia).
  assert (Fpos : 99 / 100 * (IZR k / 255) <= fval b) by (apply Rabs_le_inv in Nb; num).
  set (t := A / (IZR k / 255)). assert (Et : t * (IZR k / 255) = A) by (unfold t; field; lra).
  assert (Bt : 0 <= t <= 1).
  { split; apply (Rmult_le_reg_r (IZR k / 255)); try lra. }
  clearbody t. set (T := fval a / fval b). assert (ET : T * fval b = fval a) by (unfold T; field; lra).
  assert (K : Rabs (T - t) <= 1000 * u / IZR k).
  { apply (Rmult_le_reg_r (IZR k)); [lra|]. replace (1000 * u / IZR k * IZR k) with (1000 * u) by (field; lra).
    assert (Q : Rabs (T - t) * fval b <= 34 / 10 * u).
    { rewrite <- (Rabs_pos_eq (fval b)) by lra. rewrite <- Rabs_mult. replace ((T - t) * fval b) with ((fval a - A) + - (t * (fval b - IZR k / 255))) by (rewrite <- Et, <- ET; ring).
      eapply Rle_trans; [apply Rabs_triang|]. rewrite Rabs_Ropp, Rabs_mult, (Rabs_pos_eq t) by lra.
      assert (t * Rabs (fval b - IZR k / 255) <= 1 * (23 / 10 * u)) by (apply Rmult_le_compat; try lra; apply Rabs_pos). lra. }
    assert (Q2 : Rabs (T - t) * (99 / 100 * (IZR k / 255)) <= 34 / 10 * u) by (eapply Rle_trans; [apply Rmult_le_compat_l; [apply Rabs_pos|exact Fpos]|exact Q]).
    pose proof (Rabs_pos (T - t)). num. }
  assert (I : 0 < / IZR k <= 1). { split; [apply Rinv_0_lt_compat; lra|]. rewrite <- Rinv_1. apply Rinv_le_contravar; lra. }
  assert (K1 : 0 <= 1000 * u / IZR k <= 1000 * u) by (unfold Rdiv; set (i := / IZR k) in *; clearbody i; num).
  destruct (Bdiv_ok a b (-2) 2 Fa Fb) as [Fq Vq]; try sm; [lra|fold T; apply Rabs_le_inv in K; num|].
  split; [exact Fq|]. change (@fdiv f32 (F32 o) a b) with (Bdiv mode_NE a b). rewrite Vq. fold T.
  assert (Mt : Rabs t <= 1) by (apply Rabs_le; lra).
  eapply Rle_trans; [apply (rnd_near T t _ 1 K Mt)|]. 
  replace (1400 * u / IZR k) with (1000 * u / IZR k + 400 * u / IZR k) by (field; lra). set (j := 1000 * u / IZR k) in * .
  assert (0 <= 400 * u / IZR k) by (unfold Rdiv; apply Rmult_le_pos; num). num.
Qed.
Lemma q_lt n m : is_byte n -> is_byte m -> (n < m)%Z -> q255 n < q255 m.
Proof.
  intros Hn Hm L. destruct (q255_near n Hn) as [N1 _]. destruct (q255_near m Hm) as [M1 _]. apply Rabs_le_inv in N1, M1.
  assert (IZR n + 1 <= IZR m) by (rewrite <- plus_IZR; apply IZR_le; lia). num.
Qed.
Lemma q_0 : q255 0 = 0.
Proof. unfold q255. replace (0 / 255) with 0 by field. apply rnd32_0. Qed.
Lemma q_255 : q255 255 = 1.
Proof. unfold q255. replace (255 / 255) with 1 by field. destruct (fz_val o 1) as [_ V]; [sm|]. rewrite <- V. apply rnd32_id. Qed.
Lemma q_zero n v : is_byte n -> unitf v -> fval v = q255 n -> (@feq f32 (F32 o) v $0 = true /\ n = 0%Z) \/ (@feq f32 (F32 o) v $0 = false /\ (1 <= n)%Z).
Proof.
  intros Hn [Fv _] E. destruct (fz_val o 0) as [F0 V0]; [sm|]. destruct (Z.eq_dec n 0) as [->|N]; [left|right]; (split; [|unfold is_byte in *; lia]).
  - apply eq_val; auto. rewrite V0, E. apply q_0.
  - apply ne_val; auto. rewrite V0, E. pose proof (q_lt 0 n ltac:(unfold is_byte; lia) Hn ltac:(unfold is_byte in *; lia)). rewrite q_0 in H. lra.
Qed.
Lemma q_one n v : is_byte n -> unitf v -> fval v = q255 n -> (@feq f32 (F32 o) v $1 = true /\ n = 255%Z) \/ (@feq f32 (F32 o) v $1 = false /\ (n <= 254)%Z).
Proof.
  intros Hn [Fv _] E. destruct (fz_val o 1) as [F0 V0]; [sm|]. destruct (Z.eq_dec n 255) as [->|N]; [left|right]; (split; [|unfold is_byte in *; lia]).
  - apply eq_val; auto. rewrite V0, E. apply q_255.
  - apply ne_val; auto. rewrite V0, E. pose proof (q_lt n 255 Hn ltac:(unfold is_byte; lia) ltac:(unfold is_byte in *; lia)). rewrite q_255 in H. lra.
Qed.
Lemma clamp_ge1 t : 1 <= t -> Rmax 0 (Rmin 1 t) = 1.
Proof. intros H. rewrite Rmin_left, Rmax_right by lra. reflexivity. Qed.
Lemma clamp_0 : Rmax 0 (Rmin 1 0) = 0.
Proof. rewrite Rmin_right, Rmax_left by lra. reflexivity. Qed.
Lemma uc_0 : unit_clamp $0 = 0.
Proof. destruct (fz_val o 0) as [F0 V0]; [sm|]. rewrite unit_clamp_fin by exact F0. rewrite V0. apply clamp_0. Qed.
Lemma uc_1 : unit_clamp $1 = 1.
Proof. destruct (fz_val o 1) as [F0 V0]; [sm|]. rewrite unit_clamp_fin by exact F0. rewrite V0. apply clamp_ge1. lra. Qed.

Section Two''.
Variables (s d : Z) (x y : f32).
Hypothesis (Hs : is_byte s) (Hd : is_byte d) (Ux : unitf x) (Uy : unitf y) (Ex : fval x = q255 s) (Ey : fval y = q255 d).
Local Notation S1 := (IZR s / 255).
Local Notation D1 := (IZR d / 255).
Let ss := Ss s Hs.
Let ds := Ds d Hd.
Let NX : near x S1 (11 / 10 * u) := nx s x Hs Ux Ex.
Let NY : near y D1 (11 / 10 * u) := ny d y Hd Uy Ey.

Lemma g_zero : good $0 0.
Proof. apply (good_exact _ _ 0); rewrite ?clamp_0; [eapply near_weaken; [apply near_fz; sm|num]|apply uc_0|lra]. Qed.
Lemma g_one : good $1 1.
Proof. apply (good_exact _ _ 255); rewrite ?clamp_ge1 by lra; [eapply near_weaken; [apply near_fz; sm|num]|apply uc_1|lra]. Qed.
Lemma q_rel n : is_byte n -> Rabs (q255 n - IZR n / 255) <= 102 / 100 * u * (IZR n / 255).
Proof.
  intros [A B]. apply IZR_le in A, B. destruct (Z.eq_dec n 0) as [->|NZ].
  - rewrite q_0. replace (0 - 0 / 255) with 0 by field. rewrite Rabs_R0. lra.
  - assert (1 <= IZR n) by (assert (1 <= n)%Z by (apply le_IZR in A; lia); apply (IZR_le 1); assumption).
    apply Rle_trans with (1 := rnd_err (IZR n / 255)). rewrite Rabs_pos_eq by lra. num.
Qed.
Lemma frac_pos n : (1 <= n)%Z -> 0 < IZR n / 255.
Proof. intros H. apply (IZR_le 1) in H. lra. Qed.

Lemma g_dodge : good (@color_dodge_func f32 (F32 o) x y) (dodge S1 D1).
Proof.
  unfold color_dodge_func, dodge. destruct (q_zero d y Hd Uy Ey) as [[-> Ed]|[-> Ld]].
  { destruct (Req_EM_T D1 0) as [_|N]; [apply g_zero|rewrite Ed in N; lra]. }
  pose proof (frac_pos d Ld). destruct (Req_EM_T D1 0) as [N|_]; [lra|].
  destruct (q_one s x Hs Ux Ex) as [[-> Es]|[-> Ls]].
  { destruct (Req_EM_T S1 1) as [_|N]; [apply g_one; lra|rewrite Es in N; lra]. }
  assert (Ls' : IZR s <= 254) by (apply IZR_le, Ls). destruct (Req_EM_T S1 1) as [N|_]; [lra|].
  set (k := (255 - s)%Z). assert (Hk : (1 <= k <= 255)%Z) by (unfold k, is_byte in *; lia).
  assert (Ek : 1 - S1 = IZR k / 255) by (unfold k; rewrite minus_IZR; field).
  pose proof (one_less x (IZR k / 255) S1 NX ss (eq_sym Ek)) as NK. rewrite Ek.
  assert (Pk : 1 <= IZR k <= 255) by (split; [apply (IZR_le 1)|apply (IZR_le k 255)]; lia).
  destruct (fz_val o 1) as [F1 V1]; [sm|].
  assert (J : 0 <= 1400 * u / IZR k + 2 * u <= 1402 * u).
  { assert (I : 0 < / IZR k <= 1). { split; [apply Rinv_0_lt_compat; lra|]. rewrite <- Rinv_1. apply Rinv_le_contravar; lra. }
    unfold Rdiv. set (i := / IZR k) in * . clearbody i. num. }
  cbv zeta. destruct (Z_le_gt_dec d k) as [L|L].
  - assert (L' : D1 <= IZR k / 255) by (apply IZR_le in L; lra).
    pose proof (near_ratio y ($1 -. x) D1 k Hk NY NK ltac:(lra)) as NQ.
    assert (Q : D1 / (IZR k / 255) <= 1) by (apply (Rmult_le_reg_r (IZR k / 255)); [lra|]; unfold Rdiv at 1; rewrite Rmult_assoc, Rinv_l; lra).
    rewrite Rmin_right by exact Q. destruct (Z.eq_dec d k) as [EQ|NE].
    + (* exactly 1 *) assert (T1 : D1 / (IZR k / 255) = 1) by (rewrite EQ; field; lra). rewrite T1 in * .
      cbn [fle F32]. destruct (leb_cases (y /. ($1 -. x)) $1 (proj1 NQ) F1) as [[-> C]|[-> C]]; [|apply g_one; lra].
      apply (good_quot _ 1 k (255 * k) Hk NQ). rewrite mult_IZR. field. lra.
    + assert (M : (y /. ($1 -. x)) <> y /. ($1 -. x) \/ fval (y /. ($1 -. x)) <= 1).
      { right. assert (D1 / (IZR k / 255) <= 1 - / IZR k).
        { replace (D1 / (IZR k / 255)) with (IZR d / IZR k) by (field; lra). assert (IZR d <= IZR k - 1) by (rewrite <- minus_IZR; apply IZR_le; lia).
          apply (Rmult_le_reg_r (IZR k)); [lra|]. unfold Rdiv. rewrite Rmult_assoc, Rinv_l, Rmult_minus_distr_r, Rinv_l by lra. lra. }
        pose proof (near_range _ _ _ NQ) as [_ NR]. unfold Rdiv in NR at 2. 
        assert (0 < / IZR k) by (apply Rinv_0_lt_compat; lra). assert (/ 255 <= / IZR k) by (apply Rinv_le_contravar; lra). num. }
      destruct M as [M|M]; [destruct M; reflexivity|]. cbn [fle F32]. destruct (leb_cases (y /. ($1 -. x)) $1 (proj1 NQ) F1) as [[-> C]|[-> C]]; [|lra].
      apply (good_quot _ _ k (255 * d) Hk NQ). rewrite mult_IZR. field. lra.
  - (* more than 1 *)
    assert (Q : 1 <= D1 / (IZR k / 255)).
    { replace (D1 / (IZR k / 255)) with (IZR d / IZR k) by (field; lra). apply (Rmult_le_reg_r (IZR k)); [lra|]. unfold Rdiv. rewrite Rmult_assoc, Rinv_l by lra.
      assert (IZR k <= IZR d) by (apply IZR_le; lia). lra. }
    rewrite Rmin_left by exact Q.
    assert (B : 0 < fval ($1 -. x) /\ fval ($1 -. x) * (1 + / 1000) <= fval y).
    { apply near_range in NK. pose proof (near_range _ _ _ NY). assert (IZR k + 1 <= IZR d) by (rewrite <- plus_IZR; apply IZR_le; lia). num. }
    assert (B2 : 1 + / 1000 <= fval y / fval ($1 -. x) <= 256).
    { pose proof (near_range _ _ _ NK) as RK. pose proof (proj2 Uy) as Uy'. split.
      - apply (Rmult_le_reg_r (fval ($1 -. x))); [lra|]. unfold Rdiv. rewrite Rmult_assoc, Rinv_l by lra. lra.
      - apply (Rmult_le_reg_r (fval ($1 -. x))); [lra|]. unfold Rdiv. rewrite Rmult_assoc, Rinv_l by lra. num. }
    destruct (Bdiv_ok y ($1 -. x) (-256) 256 (proj1 Uy) (proj1 NK)) as [Fq Vq]; try sm; [lra|lra|].
    cbn [fle F32]. change (@fdiv f32 (F32 o) y ($1 -. x)) with (Bdiv mode_NE y ($1 -. x)).
    destruct (leb_cases (Bdiv mode_NE y ($1 -. x)) $1 Fq F1) as [[-> C]|[-> C]]; [|apply g_one; lra].
    exfalso. rewrite V1, Vq in C. set (T := fval y / fval ($1 -. x)) in * . clearbody T.
    pose proof (rnd_err T) as RE. rewrite (Rabs_pos_eq T) in RE by lra. apply Rabs_le_inv in RE. clear - RE C B2. num.
Qed.

Lemma wide_quot n m p q : is_byte n -> is_byte m -> (1 <= m)%Z -> 1 <= IZR n / 255 / (IZR m / 255) -> unitf p -> unitf q -> fval p = q255 n -> fval q = q255 m ->
  fin (Bdiv mode_NE p q) -> fval (Bdiv mode_NE p q) = rnd32 (fval p / fval q) -> near (p /. q) (IZR n / 255 / (IZR m / 255)) (1402 * u).
Proof.
  intros Hn Hm Lm Q Up Uq Ep Eq Fq Vq. split; [exact Fq|]. change (fval (p /. q)) with (fval (Bdiv mode_NE p q)). rewrite Vq.
  pose proof (q_rel n Hn) as N. pose proof (q_rel m Hm) as M. rewrite <- Ep in N. rewrite <- Eq in M. apply Rabs_le_inv in N, M.
  apply (IZR_le 1) in Lm. assert (Bn : 0 <= IZR n <= 255) by (split; [apply (IZR_le 0)|apply (IZR_le n 255)]; apply Hn).
  set (D := IZR n / 255) in * . set (S0 := IZR m / 255) in * . assert (BD : 0 <= D <= 1) by (unfold D; lra). assert (BS : / 255 <= S0) by (unfold S0; lra).
  set (y0 := fval p) in * . set (x0 := fval q) in * . clearbody D S0 y0 x0. clear - N M BD BS Q.
  assert (X0 : 0 < x0) by num. set (T := D / S0) in * . assert (ET : D = T * S0) by (unfold T; field; lra).
  assert (BT : 1 <= T <= 255).
  { split; [exact Q|]. apply (Rmult_le_reg_r S0); [lra|]. rewrite <- ET. lra. }
  assert (K : T * (1 - 21 / 10 * u) <= y0 / x0 <= T * (1 + 21 / 10 * u)).
  { assert (TS : 0 <= T * S0) by (apply Rmult_le_pos; lra). split; apply (Rmult_le_reg_r x0); try lra; unfold Rdiv; rewrite (Rmult_assoc y0), Rinv_l, Rmult_1_r by lra.
    - apply Rle_trans with (T * (1 - 21 / 10 * u) * (S0 * (1 + 102 / 100 * u))); [apply Rmult_le_compat_l; [apply Rmult_le_pos; num|lra]|].
      replace (T * (1 - 21 / 10 * u) * (S0 * (1 + 102 / 100 * u))) with (T * S0 * ((1 - 21 / 10 * u) * (1 + 102 / 100 * u))) by ring.
      apply Rle_trans with (T * S0 * (1 - 102 / 100 * u)); [apply Rmult_le_compat_l; num|num].
    - apply Rle_trans with (T * (1 + 21 / 10 * u) * (S0 * (1 - 102 / 100 * u))); [|apply Rmult_le_compat_l; [apply Rmult_le_pos; num|lra]].
      replace (T * (1 + 21 / 10 * u) * (S0 * (1 - 102 / 100 * u))) with (T * S0 * ((1 + 21 / 10 * u) * (1 - 102 / 100 * u))) by ring.
      apply Rle_trans with (T * S0 * (1 + 102 / 100 * u)); [num|apply Rmult_le_compat_l; num]. }
  pose proof (rnd_err (y0 / x0)) as RE. set (V := y0 / x0) in * . clearbody V T. rewrite (Rabs_pos_eq V) in RE by num. apply Rabs_le_inv in RE. apply Rabs_le. num.
Qed.
Lemma g_divide : good (@divide_func f32 (F32 o) x y) (if Req_EM_T D1 0 then 0 else if Req_EM_T S1 0 then 1 else D1 / S1).
Proof.
  unfold divide_func. destruct (q_zero d y Hd Uy Ey) as [[-> Ed]|[-> Ld]].
  { destruct (Req_EM_T D1 0) as [_|N]; [apply g_zero|rewrite Ed in N; lra]. }
  pose proof (frac_pos d Ld). destruct (Req_EM_T D1 0) as [N|_]; [lra|].
  destruct (q_zero s x Hs Ux Ex) as [[-> Es]|[-> Ls]].
  { destruct (Req_EM_T S1 0) as [_|N]; [apply g_one; lra|rewrite Es in N; lra]. }
  pose proof (frac_pos s Ls). destruct (Req_EM_T S1 0) as [N|_]; [lra|].
  assert (Ps : 1 <= IZR s <= 255) by (unfold is_byte in *; split; [apply (IZR_le 1)|apply (IZR_le s 255)]; lia).
  destruct (Z_le_gt_dec d s) as [L|L].
  - assert (L' : D1 <= IZR s / 255) by (apply IZR_le in L; lra).
    assert (NK : near x (IZR s / 255) (23 / 10 * u)) by (eapply near_weaken; [exact NX|num]).
    pose proof (near_ratio y x D1 s ltac:(unfold is_byte in *; lia) NY NK ltac:(lra)) as NQ.
    apply (good_quot _ _ s (255 * d) ltac:(unfold is_byte in *; lia) NQ). rewrite mult_IZR. field. lra.
  - assert (Q : 1 <= D1 / S1).
    { replace (D1 / S1) with (IZR d / IZR s) by (field; lra). apply (Rmult_le_reg_r (IZR s)); [lra|]. unfold Rdiv. rewrite Rmult_assoc, Rinv_l by lra.
      assert (IZR s <= IZR d) by (apply IZR_le; lia). lra. }
    pose proof (q_lt s d Hs Hd ltac:(lia)) as M. rewrite <- Ex, <- Ey in M. pose proof (near_range _ _ _ NX) as RX. pose proof (proj1 Uy) as Fy. pose proof (proj2 Uy) as Uy'.
    assert (0 < fval x) by num.
    assert (B2 : 1 <= fval y / fval x <= 256).
    { split; apply (Rmult_le_reg_r (fval x)); try lra; unfold Rdiv; rewrite Rmult_assoc, Rinv_l by lra; num. }
    destruct (Bdiv_ok y x (-256) 256 Fy (proj1 Ux)) as [Fq Vq]; try sm; [lra|lra|].
    apply (good_exact _ _ 255); rewrite ?clamp_ge1 by exact Q; [| |lra].
    { apply (wide_quot d s y x); auto; lra. }
    change (@fdiv f32 (F32 o) y x) with (Bdiv mode_NE y x). rewrite unit_clamp_fin by exact Fq. apply clamp_ge1. rewrite Vq.
    apply (rnd32_bounds _ 1 256); try sm. lra.
Qed.

(** Complementary bytes: the 256 cases by computation. *)
Definition frac32 (n : Z) : f32 := Bdiv mode_NE (lit32 (inject_Z n)) (lit32 (inject_Z 255)).
Definition complement_ok (n : Z) : bool := negb (Bltb (frac32 (255 - n)) (Bminus mode_NE (lit32 (inject_Z 1)) (frac32 n))).
Lemma complements : forallb complement_ok (map Z.of_nat (seq 0 256)) = true.
Proof. vm_compute. reflexivity. Qed.
Lemma frac_q n : is_byte n -> fin (frac32 n) /\ fval (frac32 n) = q255 n.
Proof.
  intros Hn. assert (B : 0 <= IZR n <= 255) by (split; [apply (IZR_le 0)|apply (IZR_le n 255)]; apply Hn).
  destruct (fz_val o n) as [Fn Vn]; [destruct Hn; unfold small; lia|]. destruct (fz_val o 255) as [F2 V2]; [sm|]. rewrite fz32 in * .
  destruct (Bdiv_ok (lit32 (inject_Z n)) (lit32 (inject_Z 255)) 0 1 Fn F2) as [Fd Vd]; try sm; [rewrite V2; lra|rewrite Vn, V2; lra|].
  split; [exact Fd|]. unfold frac32. rewrite Vd, Vn, V2. reflexivity.
Qed.
Lemma g_hard_mix : good (@hard_mix_func f32 (F32 o) x y) (if Rlt_dec (S1 + D1) 1 then 0 else 1).
Proof.
  pose proof (one_less y (1 - D1) D1 NY ds eq_refl) as N1. pose proof (near_range _ _ _ NX) as RX. pose proof (near_range _ _ _ N1) as RD.
  unfold hard_mix_func. cbn [flt F32]. destruct (ltb_cases x ($1 -. y) (proj1 NX) (proj1 N1)) as [[-> C]|[-> C]]; (destruct (Rlt_dec (S1 + D1) 1) as [L|L]; [|]).
  - apply g_zero.
  - exfalso. destruct (Z.eq_dec (s + d) 255) as [E|NE].
    + clear RX RD. pose proof complements as K. rewrite forallb_forall in K. specialize (K d). 
      assert (I : In d (map Z.of_nat (seq 0 256))).
      { destruct Hd. replace d with (Z.of_nat (Z.to_nat d)) by lia. apply in_map. apply in_seq. lia. }
      specialize (K I). unfold complement_ok in K. replace (255 - d)%Z with s in K by lia.
      destruct (frac_q s Hs) as [Fs Vs]. destruct (frac_q d Hd) as [Fd Vd]. destruct (fz_val o 1) as [F1 V1]; [sm|].
      destruct (Bminus_ok $1 (frac32 d) (-2) 2 F1 Fd) as [Fm Vm]; try sm; [rewrite V1, Vd; destruct (q255_near d Hd); lra|].
      destruct (Bminus_ok $1 y (-2) 2 F1 (proj1 Uy)) as [Fm' Vm']; try sm; [rewrite V1, Ey; destruct (q255_near d Hd); lra|].
      change (lit32 (inject_Z 1)) with (@fz f32 (F32 o) 1) in K.
      destruct (ltb_cases (frac32 s) (Bminus mode_NE $1 (frac32 d)) Fs Fm) as [[Q C']|[Q C']]; rewrite Q in K; [discriminate K|].
      rewrite Vm, Vd, Vs in C'. change (@fsub f32 (F32 o) $1 y) with (Bminus mode_NE $1 y) in C. rewrite Vm', Ex, Ey in C. lra.
    + assert (P : (256 <= s + d)%Z) by (assert (255 <= s + d)%Z; [|lia]; apply le_IZR; rewrite plus_IZR; lra).
      apply IZR_le in P. rewrite plus_IZR in P. num.
  - exfalso. assert (P : (s + d <= 254)%Z). { assert (s + d < 255)%Z; [|lia]. apply lt_IZR. rewrite plus_IZR. lra. }
    apply IZR_le in P. rewrite plus_IZR in P. num.
  - apply g_one.
Qed.
End Two''.

(** ** All modes that follow their definition *)
Lemma value8 m t cs cd i s d x y : exact_function m = Some t -> is_byte s -> is_byte d -> unitf x -> unitf y -> fval x = q255 s -> fval y = q255 d ->
  good (@blend_function f32 (F32 o) m cs cd i x y) (t (IZR s / 255) (IZR d / 255)).
Proof.
  intros E Hs Hd Ux Uy Ex Ey.
  destruct m; try discriminate E; cbn in E; injection E as <-; cbn [blend_function].
  - apply g_normal; auto.
  - apply g_multiply; auto.
  - apply g_screen; auto.
  - apply g_hard; auto.
  - apply g_darken; auto.
  - apply g_lighten; auto.
  - apply g_dodge; auto.
  - apply g_add; auto.
  - rewrite (Rplus_comm (IZR s / 255)). pose proof (n_add1 d s y x Hd Hs Uy Ux Ey Ex) as N. apply (good_poly _ _ (255 * (d + s - 255)) N).
    rewrite mult_IZR, minus_IZR, plus_IZR. field.
  - apply g_hard; auto.
  - apply g_linear_light; auto.
  - apply g_pin; auto.
  - apply g_hard_mix; auto.
  - apply g_difference; auto.
  - apply g_sub; auto.
  - apply g_divide; auto.
  - apply g_add; auto.
  - pose proof (n_add1 s d x y Hs Hd Ux Uy Ex Ey) as N. apply (good_poly _ _ (255 * (s + d - 255)) N).
    rewrite mult_IZR, minus_IZR, plus_IZR. field.
  - apply g_exclusion; auto.
Qed.
End B.
