(** * Conversions: what exactly some conversions compute, and C32 *)
From Coq Require Import ZArith QArith Reals Lra Lia List Bool.
From Flocq Require Import Core IEEE754.BinarySingleNaN.
From Verif Require Import Arith Outcome ColorModel GammaModel MatrixModel SpaceModel Heap Converter F32 F32Facts RArith
  Spec Spec32 History Laws NormalForms Core_Proofs Core2_Proofs Core3_Proofs Alpha8 Spec_Matrix Spec_Space Spec_Conv Gamma_Proofs Conv_Proofs Conv2_Proofs
  Core4_Proofs Total_Proofs Convert_Proofs.
Import ListNotations.
Local Open Scope Z_scope.

Section Run.
Context {F : Type} {AF : Arith F} {AL : ArithLaws F} {A8 : Alpha8Laws F}.

(** The heap after allocating [r]. *)
Definition pushed (h : heap F) (r : color F) : heap F := Heap (colors h ++ [r]) (spaces h).

Lemma leaf_run X f (h : heap F) p c r : at_addr h p c -> wf_color X c -> f c = Ok r ->
  leaf X f (Some p) h = (Ok (Some (length (colors h))), pushed h r).
Proof. intros Hp W E. unfold leaf, bind. rewrite (load_as_ok h p c X Hp W). unfold lift. rewrite E. reflexivity. Qed.

Lemma leaf_white_run X f (h : heap F) p c w r : at_addr h p c -> wf_color X c -> load_white c h = (Ok w, h) -> f c w = Ok r ->
  leaf_white X f (Some p) h = (Ok (Some (length (colors h))), pushed h r).
Proof.
  intros Hp W Hw E. unfold leaf_white, bind. rewrite (load_as_ok h p c X Hp W). rewrite Hw. unfold lift. rewrite E. reflexivity.
Qed.

(** The object after the curve was applied to every component. *)
Definition corrected (curve : F -> F) (c : color F) : color F :=
  with_comps c (map (fun v => clamp (curve v) (m_max c) (m_min c)) (comps c)).

Lemma correct_run (h : heap F) curve c i s g v l : comps c = v :: l -> rgb_space c = Some i -> nth_error (spaces h) i = Some s -> s_gamma s = Some g ->
  correct_with curve c h = (Ok (corrected (curve g) c), h).
Proof.
  intros E Es Hs Hg. unfold correct_with, corrected. rewrite E. unfold load_gamma, bind, load_space. rewrite Es, Hs, Hg. reflexivity.
Qed.

Lemma rgb_deep_to_xyz_run (h : heap F) p c i s g x y z : at_addr h p c -> wf_color RGB_DEEP c ->
  rgb_space c = Some i -> nth_error (spaces h) i = Some s -> s_gamma s = Some g ->
  mulvec (s_matrix s) (comps (corrected (inverse_gamma_correction g) c)) = Ok [x; y; z] ->
  rgb_deep_to_xyz (Some p) h =
    (Ok (Some (length (colors h))),
     Heap (upd p (corrected (inverse_gamma_correction g) c) (colors h) ++
           [Color XYZ XYZ [c100 x; c100 y; c100 z] (m_alpha c) (fz 100) (fz 0) (rgb_space c)]) (spaces h)).
Proof.
  intros Hp W Es Hs Hg EM. destruct (comps3 _ c W eq_refl) as [r0 [g0 [b0 Ec]]].
  unfold rgb_deep_to_xyz, bind. rewrite (load_as_ok h p c _ Hp W). unfold do_inverse_gamma_correction.
  rewrite (correct_run h _ c i s g _ _ Ec Es Hs Hg). set (c' := corrected (inverse_gamma_correction g) c) in *.
  rewrite (store_ok h p c c' Hp). unfold load_space. replace (rgb_space c') with (Some i) by (symmetry; exact Es).
  cbn [spaces]. rewrite Hs. unfold lift. rewrite EM. rewrite <- Es. rewrite xyz_nf. unfold alloc. cbn [colors spaces].
  rewrite upd_length. replace (alpha c') with (m_alpha c); [reflexivity|].
  unfold alpha. replace (cls c') with RGB_DEEP by (symmetry; apply (wf_cls _ _ W)). reflexivity.
Qed.

Lemma set0 x y z a mx mn sp (v : F) : named_set RGB_DEEP (Color RGB_DEEP RGB_DEEP [x; y; z] a mx mn sp) v 0 =
  Ok (Color RGB_DEEP RGB_DEEP [clamp v mx mn; y; z] a mx mn sp).
Proof. reflexivity. Qed.
Lemma set1 x y z a mx mn sp (v : F) : named_set RGB_DEEP (Color RGB_DEEP RGB_DEEP [x; y; z] a mx mn sp) v 1 =
  Ok (Color RGB_DEEP RGB_DEEP [x; clamp v mx mn; z] a mx mn sp).
Proof. reflexivity. Qed.
Lemma set2 x y z a mx mn sp (v : F) : named_set RGB_DEEP (Color RGB_DEEP RGB_DEEP [x; y; z] a mx mn sp) v 2 =
  Ok (Color RGB_DEEP RGB_DEEP [x; y; clamp v mx mn] a mx mn sp).
Proof. reflexivity. Qed.

(** The three channels are clamped twice before the gamma correction. *)
Definition c01x (v : F) : F := c01 (clamp_float (c01 v) (fz 0) (fz 1)).

Lemma xyz_to_rgb_deep_run (h : heap F) p c i s g x y z : at_addr h p c -> wf_color XYZ c ->
  rgb_space c = Some i -> nth_error (spaces h) i = Some s -> s_gamma s = Some g ->
  mulvec (s_inverse s) (comps c) = Ok [x; y; z] ->
  xyz_to_rgb_deep (Some p) h =
    (Ok (Some (length (colors h))),
     pushed h (corrected (gamma_correction g) (Color RGB_DEEP RGB_DEEP [c01x x; c01x y; c01x z] (m_alpha c) (fz 1) (fz 0) (rgb_space c)))).
Proof.
  intros Hp W Es Hs Hg EM.
  unfold xyz_to_rgb_deep, bind. rewrite (load_as_ok h p c _ Hp W). unfold load_space at 1. rewrite Es, Hs.
  unfold lift at 1. rewrite EM. unfold lift at 1. rewrite rgb_deepcolor_nf. rewrite alloc_at.
  rewrite (alpha_std c _ W eq_refl).
  set (d := Color RGB_DEEP RGB_DEEP [c01 x; c01 y; c01 z] (m_alpha c) (fz 1) (fz 0) (Some i)).
  set (h1 := Heap _ (spaces h)). unfold lift, with3.
  unfold d at 1. cbn [comps]. unfold d at 1. rewrite set0. cbn [comps]. rewrite set1. cbn [comps]. rewrite set2.
  unfold do_gamma_correction.
  match goal with |- context [correct_with _ ?d _] => rewrite (correct_run h1 gamma_correction d i s g _ _ eq_refl eq_refl Hs Hg) end.
  match goal with |- context [store _ ?d' h1] => rewrite (store_ok h1 (length (colors h)) d d' (at_new h d _)) end.
  unfold ret, pushed. cbn [colors spaces h1]. f_equal. f_equal.
  assert (U : forall (l : list (color F)) a b, upd (length l) b (l ++ [a]) = l ++ [b]).
  { induction l as [|t l IH]; intros; [reflexivity|]. cbn [length app upd]. rewrite IH. reflexivity. }
  rewrite U. reflexivity.
Qed.
End Run.

(** ** C32 *)
Lemma srgb_inverse_low o (x : f32) : fle (Arith := F32 o) x (lit32 (4045 # 100000)) = true ->
  @inverse_gamma_correction f32 (F32 o) (@gamma_sRGB f32 (F32 o)) x = fdiv (Arith := F32 o) x (lit32 (1292 # 100)).
Proof.
  intros H.
  assert (L : Bltb (lit32 1) (lit32 (4045 # 100000)) = false) by (vm_compute; reflexivity).
  assert (L' : Bltb (lit32 (4045 # 100000)) (lit32 1) = true) by (vm_compute; reflexivity).
  unfold gamma_sRGB, inverse_gamma_correction, gamma_ctor. cbn [ig_parts sort_parts insert_part].
  unfold part_lt. cbn [g_border piece flt F32 lit]. rewrite L.
  cbn [apply_parts g_fun piece g_border lit F32] in *. rewrite H. reflexivity.
Qed.

(** A dark colour, and what the first step of its conversion leaves in its place. *)
Lemma dark_deep o : exists (s : space_def f32) (c : color f32), usable_space s /\ s_gamma s = Some (@gamma_sRGB f32 (F32 o)) /\
  @wf_color f32 (F32 o) RGB_DEEP c /\ rgb_space c = Some 0%nat /\ @reachable f32 (F32 o) c /\
  comp_sat c 0 (fun x => is_value x (1 / 32)) /\
  comp_sat (@corrected f32 (F32 o) (@inverse_gamma_correction f32 (F32 o) (@gamma_sRGB f32 (F32 o))) c) 0 (fun x => is_finite x = true /\ (fval x < 1 / 320)%R).
Proof.
  destruct (space_ctor_usable (AF := F32 o) (lit32 (64 # 100)) (lit32 (33 # 100)) (lit32 (30 # 100)) (lit32 (60 # 100)) (lit32 (15 # 100)) (lit32 (6 # 100))
    0%nat (wp_D65_2Degree (AF := F32 o)) (gamma_sRGB (AF := F32 o))) as [s [Es [U [_ Hg]]]].
  set (v := lit32 (1 # 32)).
  destruct (rgb_deepcolor_made (AF := F32 o) (AL := F32Laws o) v v v (lit32 1) (Some 0%nat)) as [c [Ec [W [A S]]]].
  pose proof Ec as Ec'. rewrite rgb_deepcolor_nf in Ec. injection Ec as Ec.
  assert (Fv : is_finite v = true) by (vm_compute; reflexivity).
  assert (Vv : fval v = (1 / 32)%R).
  { rewrite (proj2 (fval_SF v false 8388608 (-28) ltac:(vm_compute; reflexivity))). unfold F2R. simpl. lra. }
  assert (C1 : @c01 f32 (F32 o) v = v).
  { unfold c01; apply (clamp_id (AF := F32 o)); try sm. apply within32; try sm. split; [exact Fv|]. rewrite Vv. simpl; lra. }
  assert (Cc : comps c = [v; v; v]) by (rewrite <- Ec; change ([@c01 f32 (F32 o) v; @c01 f32 (F32 o) v; @c01 f32 (F32 o) v] = [v; v; v]); rewrite C1; reflexivity).
  assert (Sc : rgb_space c = Some 0%nat) by (rewrite <- Ec; reflexivity).
  exists s, c. split; [exact U|]. split; [exact Hg|]. split; [exact W|]. split; [exact Sc|].
  split; [apply r_new; eapply mk_rgb_deep; exact Ec'|].
  split; [exists v; rewrite Cc; split; [reflexivity|split; [exact Fv|exact Vv]]|].
  assert (LE : fle (Arith := F32 o) v (lit32 (4045 # 100000)) = true) by (cbn [fle F32]; vm_compute; reflexivity).
  exists (clamp (AF := F32 o) (fdiv (Arith := F32 o) v (lit32 (1292 # 100))) (m_max c) (m_min c)).
  split; [unfold corrected; cbn [comps with_comps]; rewrite Cc; cbn [map nth_error]; rewrite (srgb_inverse_low o v LE); reflexivity|].
  rewrite (wf_max _ _ W), (wf_min _ _ W).
  assert (Fq : is_finite (fdiv (Arith := F32 o) v (lit32 (1292 # 100))) = true) by (cbn [fdiv F32]; vm_compute; reflexivity).
  set (q := fdiv (Arith := F32 o) v (lit32 (1292 # 100))) in *.
  assert (Vq : (0 < fval q < 1 / 320)%R).
  { rewrite (proj2 (fval_SF q false 10388369 (-32) ltac:(vm_compute; reflexivity))). unfold F2R. simpl. lra. }
  replace (clamp (AF := F32 o) q (@fz f32 (F32 o) (snd (limits RGB_DEEP))) (@fz f32 (F32 o) (fst (limits RGB_DEEP)))) with q; [split; [exact Fq|apply Vq]|].
  symmetry. cbn [limits fst snd]. apply (clamp_id (AF := F32 o)); try sm. apply within32; try sm. split; [exact Fq|]. clear - Vq. destruct Vq. split; lra.
Qed.

(** The first step of the conversion of a deep colour, on any heap. *)
Lemma deep_step {F} {AF : Arith F} {AL : ArithLaws F} (h : heap F) p c i s g : at_addr h p c -> wf_color RGB_DEEP c -> rgb_space c = Some i -> nth_error (spaces h) i = Some s ->
  usable_space s -> s_gamma s = Some g ->
  exists q r h1, rgb_deep_to_xyz (Some p) h = (Ok (Some q), h1) /\ at_addr h1 p (corrected (inverse_gamma_correction g) c) /\
    at_addr h1 q r /\ wf_color XYZ r /\ rgb_space r = rgb_space c /\ spaces h1 = spaces h /\ q <> p.
Proof.
  intros Hp W Sc Hs [_ [_ [U3 _]]] Hg. set (c' := corrected (inverse_gamma_correction g) c).
  destruct (comps3 _ c W eq_refl) as [r0 [g0 [b0 Ec]]].
  assert (Lc : exists a b d, comps c' = [a; b; d]) by (unfold c', corrected; cbn [comps with_comps]; rewrite Ec; cbn [map]; eauto).
  destruct Lc as [a [b [d Lc]]]. destruct (mulvec33_ok (s_matrix s) a b d U3) as [X [Y [Z EM]]]. rewrite <- Lc in EM.
  pose proof (rgb_deep_to_xyz_run h p c i s g X Y Z Hp W Sc Hs Hg EM) as R.
  destruct (xyz_made X Y Z (m_alpha c) (rgb_space c)) as [r [Er [Wr [_ Sr]]]]. rewrite xyz_nf in Er. injection Er as Er. rewrite Er in R.
  exists (length (colors h)), r. eexists. split; [exact R|]. pose proof (at_addr_lt _ _ _ Hp) as L.
  split. { unfold at_addr. cbn [colors]. rewrite nth_error_app1 by (rewrite upd_length; exact L). apply upd_nth_same. exact L. }
  split. { unfold at_addr. cbn [colors]. rewrite nth_error_app2 by (rewrite upd_length; apply Nat.le_refl). rewrite upd_length, Nat.sub_diag. reflexivity. }
  split; [exact Wr|]. split; [exact Sr|]. split; [reflexivity|lia].
Qed.

Lemma convert_modifies o : exists (h : heap f32) p c q h' c',
  at_addr h p c /\ @reachable f32 (F32 o) c /\ has_space h c /\
  @to_xyz f32 (F32 o) (Some p) h = (Ok (Some q), h') /\ at_addr h' p c' /\
  comp_sat c 0 (fun x => is_value x (1 / 32)) /\ comp_sat c' 0 (fun x => is_finite x = true /\ (fval x < 1 / 320)%R).
Proof.
  destruct (dark_deep o) as [s [c [U [Hg [W [Sc [Rc [C1 C2]]]]]]]]. pose (h := Heap [c] [s]).
  destruct (deep_step (AF := F32 o) h 0%nat c 0%nat s _ eq_refl W Sc eq_refl U Hg) as [q [r [h1 [R [A _]]]]].
  exists h, 0%nat, c, q, h1. eexists. split; [reflexivity|]. split; [exact Rc|]. split; [exists 0%nat, s; auto|].
  split. { unfold to_xyz, bind at 1. unfold load. cbn [colors h nth_error]. rewrite (wf_ty _ _ W). exact R. }
  split; [exact A|]. split; [exact C1|exact C2].
Qed.

(** ** Statements for objects client code can build *)
Lemma presets_usable32 o addr (m : outcome (space_def f32)) : In m (@space_presets f32 (F32 o) addr) -> exists s, m = Ok s /\ usable_space s.
Proof. apply (presets_usable (AF := F32 o)). Qed.

Lemma reported_alpha o (c : color f32) :
  @alpha f32 (F32 o) c = if eight_bit (cls c) then fmul (Arith := F32 o) (m_alpha c) (fz (H := F32 o) 255) else m_alpha c.
Proof. unfold alpha. destruct (cls c); reflexivity. Qed.

Lemma alpha_example o k : In k all_types -> exists (h : heap f32) p c,
  at_addr h p c /\ @reachable f32 (F32 o) c /\ cls c = k /\ has_space h c /\ in_interval 0 1 (m_alpha c) /\ ~ @black_hsl f32 (F32 o) c.
Proof.
  intros I.
  destruct (space_ctor_usable (AF := F32 o) (lit32 (64 # 100)) (lit32 (33 # 100)) (lit32 (30 # 100)) (lit32 (60 # 100)) (lit32 (15 # 100)) (lit32 (6 # 100))
    0%nat (wp_D65_2Degree (AF := F32 o)) (gamma_sRGB (AF := F32 o))) as [s [Es [U [_ Hg]]]].
  destruct half_val as [H V]. destruct (fz_val o 1) as [F1 V1]; [sm|]. destruct (fz_val o 0) as [F0 V0]; [sm|].
  destruct (ctor_stores o k (repeat (lit32 (1 # 2)) (arity k)) (@fz f32 (F32 o) 1) (Some 0%nat) I) as [c [E [K [T [S [L [C [A _]]]]]]]].
  { apply repeat_length. }
  pose proof (r_new _ (ctor_constructed _ _ _ _ _ E)) as RC.
  exists (Heap [c] [s]), 0%nat, c. split; [reflexivity|]. split; [exact RC|]. split; [exact K|].
  split; [exists 0%nat, s; split; [exact S|split; [reflexivity|exact U]]|]. split.
  - destruct (eight_bit k) eqn:B.
    + destruct (reachable_inv (AF := F32 o) _ RC) as [_ AO]. rewrite K in AO. specialize (AO B).
      apply (within_in_interval o); try sm. exact AO.
    + specialize (A eq_refl). unfold alpha in A. rewrite K in A.
      assert (M : m_alpha c = @fz f32 (F32 o) 1) by (clear - A B; destruct k; try discriminate B; exact A).
      rewrite M. split; auto. rewrite V1. lra.
  - intros [T' [x [y [z [Ec B]]]]]. rewrite T' in T. subst k. rewrite <- T in *.
    destruct (C 2%nat (lit32 (1 # 2))) as [v [Nv [Sv _]]]; [reflexivity|].
    rewrite Ec in Nv. injection Nv as <-.
    change (B2R (lit32 (1 # 2))) with (fval (lit32 (1 # 2))) in Sv. rewrite V in Sv.
    destruct Sv as [Fz Vz]. { split; auto. rewrite V. cbn [comp_range fst snd]. lra. }
    cbn [feq F32] in B. rewrite Beqb_fin in B by assumption. change (B2R z) with (fval z) in Vz. rewrite Vz, V0 in B.
    revert B. apply Bool.not_true_iff_false. apply Req_bool_false. lra.
Qed.

Lemma alias_example : exists (h : heap f32) p c q, at_addr h p c /\ @reachable f32 (F32 nan_oracle) c /\
  fst (@to_type f32 (F32 nan_oracle) CMYK (Some p) h) = Ok (Some q) /\ q <> p.
Proof.
  destruct (alpha_example nan_oracle RGB_TRUE) as [h [p [c [Hp [Rc [K [HS _]]]]]]]; [simpl; auto|].
  pose proof (reachable_wf nan_oracle c Rc) as W. rewrite K in W.
  destruct (conversion_aliasing nan_oracle h p c RGB_TRUE CMYK Hp W) as [_ N]; [simpl; tauto|auto|].
  destruct N as [q [h' [E Fq]]]; [discriminate|].
  exists h, p, c, q. rewrite E. split; [exact Hp|]. split; [exact Rc|]. split; [reflexivity|].
  unfold fresh in Fq. apply at_addr_lt in Hp. lia.
Qed.
