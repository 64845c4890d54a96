(** * color_base: premultiplying colours that are not RGB *)
From Coq Require Import ZArith QArith Reals Lra Lia List Bool.
From Flocq Require Import Core IEEE754.BinarySingleNaN.
From Verif Require Import Arith Outcome ColorModel Heap Converter Spec RArith Laws NormalForms Core_Proofs Core2_Proofs Convert_Proofs
  Spec_Conv Spec_Calc Spec_Round HueR_Proofs Round_Proofs Formula_Proofs FormulaEx_Proofs HueMean_Proofs Calc3_Proofs Formula2_Proofs.
Import ListNotations.
Local Open Scope R_scope.

Lemma unit_scaled x a : 0 <= x <= 1 -> 0 <= a <= 1 -> 0 <= x * a <= 1.
Proof. intros Hx Ha. split; [apply Rmult_le_pos; lra|]. replace 1 with (1 * 1) by ring. apply Rmult_le_compat; lra. Qed.

Lemma premultiplied_hue X (c : color R) x : In X [HSV; HSL; HSI; HCY; LCH_AB; LCH_UV] -> wf_color X c -> nth_error (comps c) (hue_at X) = Some x -> x <> 0 -> m_alpha c <> 1 ->
  exists w, nth_error (comps (alpha_multiply c)) (hue_at X) = Some w /\ w = x * m_alpha c /\ w <> x.
Proof.
  intros _ _ E Hx Ha. exists (x * m_alpha c). split; [|split; [reflexivity|]].
  - unfold alpha_multiply, with_comps. cbn [comps]. rewrite nth_error_map, E. reflexivity.
  - intros Q. apply Ha. apply (Rmult_eq_reg_l x); [lra|exact Hx].
Qed.

Lemma premultiplied_cmyk_wf (c : color R) : wf_color CMYK c -> 0 <= m_alpha c <= 1 -> wf_color CMYK (alpha_multiply c).
Proof.
  intros W A. constructor; try apply W.
  - unfold alpha_multiply, with_comps. cbn [comps]. rewrite map_length. apply W.
  - intros i v E. unfold alpha_multiply, with_comps in E. cbn [comps] in E. rewrite nth_error_map in E.
    destruct (nth_error (comps c) i) as [x|] eqn:Ex; [|discriminate E]. cbn [option_map] in E. injection E as <-.
    assert (B := wf_rng CMYK c i x W Ex). cbv [comp_range fst snd] in B |- *.
    assert (K := unit_scaled x (m_alpha c) B A).
    unfold within. rewrite !fzR. cbn [fle fmul RArith]. split; apply Rleb_le; lra.
Qed.
Lemma premultiplied_cmyk (h : heap R) p c cy m y k : at_addr h p (alpha_multiply c) -> wf_color CMYK c -> comps c = [cy; m; y; k] -> 0 <= m_alpha c <= 1 ->
  yields to_rgb_deep h p (fun d => ty d = RGB_DEEP /\ exists r g b, comps d = [r; g; b] /\
    (1 - cy) * (1 - k) <= r /\ (1 - m) * (1 - k) <= g /\ (1 - y) * (1 - k) <= b /\ (m_alpha c = 0 -> r = 1 /\ g = 1 /\ b = 1)).
Proof.
  intros H W E A. pose proof (premultiplied_cmyk_wf c W A) as W'.
  assert (E' : comps (alpha_multiply c) = [cy * m_alpha c; m * m_alpha c; y * m_alpha c; k * m_alpha c]).
  { unfold alpha_multiply, with_comps. cbn [comps]. rewrite E. reflexivity. }
  destruct (from_cmyk h p _ _ _ _ _ H W' E') as [q [d [h1 [Eq [Ad [T [C _]]]]]]].
  exists q, d, h1. split; [exact Eq|]. split; [exact Ad|]. split; [exact T|].
  assert (B0 := wf_rng CMYK c 0 cy W). assert (B1 := wf_rng CMYK c 1 m W). assert (B2 := wf_rng CMYK c 2 y W). assert (B3 := wf_rng CMYK c 3 k W).
  rewrite E in B0, B1, B2, B3. specialize (B0 eq_refl). specialize (B1 eq_refl). specialize (B2 eq_refl). specialize (B3 eq_refl).
  cbv [comp_range fst snd] in B0, B1, B2, B3.
  assert (L : forall x, 0 <= x <= 1 -> (1 - x) * (1 - k) <= (1 - x * m_alpha c) * (1 - k * m_alpha c)).
  { intros x Hx. assert (S : forall v, 0 <= v <= 1 -> v * m_alpha c <= v).
    { intros v Hv. apply Rle_trans with (v * 1); [apply Rmult_le_compat_l; lra|lra]. }
    assert (Hk : 0 <= k <= 1) by exact B3. pose proof (S x Hx). pose proof (S k Hk). apply Rmult_le_compat; lra. }
  do 3 eexists. split; [exact C|]. split; [apply L, B0|]. split; [apply L, B1|]. split; [apply L, B2|].
  intros ->. repeat split; ring.
Qed.
Lemma premul_example : exists (h : heap R) c d, at_addr h 0%nat (alpha_multiply c) /\ wf_color CMYK c /\ comps c = [1 / 5; 2 / 5; 3 / 5; 1 / 10] /\ m_alpha c = 1 / 2 /\
  wf_color HSV d /\ nth_error (comps d) (hue_at HSV) = Some 200 /\ m_alpha d = 1 / 2.
Proof.
  destruct (cmyk_made (AF := RArith) (AL := RLaws) (1 / 5) (2 / 5) (3 / 5) (1 / 10) (1 / 2) None) as [c [Ec [Wc [Ac _]]]].
  destruct (hsv_made (AF := RArith) (AL := RLaws) 200 1 1 (1 / 2) None) as [d [Ed [Wd [Ad _]]]].
  exists (Heap [alpha_multiply c] []), c, d. split; [reflexivity|]. split; [exact Wc|].
  rewrite cmyk_nf in Ec. rewrite hsv_nf in Ed. rewrite hue_norm_id in Ed by lra. rewrite (c01R (1 / 5)), (c01R (2 / 5)), (c01R (3 / 5)), (c01R (1 / 10)) in Ec by lra. rewrite !(c01R 1) in Ed by lra. injection Ec as <-. injection Ed as <-.
  split; [reflexivity|]. split; [exact Ac|]. split; [exact Wd|]. split; [reflexivity|exact Ad].
Qed.
