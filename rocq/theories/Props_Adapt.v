(** * Properties C68-C71, C110-C119: chromatic_adaptation *)
From Coq Require Import ZArith QArith Reals List Bool.
From Flocq Require Import Core IEEE754.BinarySingleNaN.
From Verif Require Import Arith Outcome ColorModel SpaceModel Heap Converter Adapt Spec F32 RArith Spec32 History Spec_Conv Spec_Space Spec_Blend Spec_Adapt
  Space_Proofs Adapt_Proofs Adapt2_Proofs Adapt3_Proofs Adapt4_Proofs.
Import ListNotations.
Local Open Scope R_scope.

(** C68 *)
Theorem C68_same_white : forall o m (h : heap f32) p c i s, at_addr h p c -> rgb_space c = Some i -> nth_error (spaces h) i = Some s ->
  @adaptation f32 (F32 o) m (Some p) (s_white s) h = (Ok (Some p), h).
Proof. exact adaptation_same. Qed.
Print Assumptions C68_same_white.
(** Example for this and the following theorems: an XYZ or 8-bit RGB colour in a space with white D65 *)
Example C68_example : forall o X r g b, X = XYZ \/ X = RGB_TRUE -> exists (h : heap f32) c s, at_addr h 0%nat c /\ @reachable f32 (F32 o) c /\ cls c = X /\
  has_white h c s 0%nat (@wp_D65_2Degree f32 (F32 o)) /\ @wf_color f32 (F32 o) X c /\
  comps c = map (fun n => clamp (AF := F32 o) (@fz f32 (F32 o) n) (@fz f32 (F32 o) (snd (limits X))) (@fz f32 (F32 o) 0)) [r; g; b].
Proof. exact adapt_example32. Qed.

(** C69: with white points in [0, B] the error is at most 0.000015 * B *)
Theorem C69_white_to_white : forall m (h : heap R) p c s a w0 b w B, simplified m = true -> at_addr h p c -> wf_color XYZ c -> has_white h c s a w0 -> a <> b ->
  comps_are c (white_vec w0) -> nonzero3 (responses m w0) -> B <= 100 -> bounded3 B (white_vec w) ->
  exists q r h', adaptation m (Some p) (Some (b, w)) h = (Ok (Some q), h') /\ at_addr h' q r /\ comps_near (15 / 1000000 * B) r (white_vec w).
Proof. exact white_to_white. Qed.
Print Assumptions C69_white_to_white.
Theorem C69_xyz_scaling : forall (h : heap R) p c s a w0 b w, at_addr h p c -> wf_color XYZ c -> has_white h c s a w0 -> a <> b ->
  comps_are c (white_vec w0) -> nonzero3 (white_vec w0) -> bounded3 100 (white_vec w) ->
  exists q r h', adaptation XyzScale (Some p) (Some (b, w)) h = (Ok (Some q), h') /\ at_addr h' q r /\ comps_are r (white_vec w).
Proof. exact white_to_white_xyz. Qed.
Print Assumptions C69_xyz_scaling.
Example C69_example : forall w0, In w0 good_whites -> exists (h : heap R) c s, at_addr h 0%nat c /\ wf_color XYZ c /\ has_white h c s 0%nat w0 /\ comps_are c (white_vec w0).
Proof. exact white_example. Qed.
Example C69_example_responses : forall m w, In w good_whites -> positive3 (responses m w) /\ 0 < ty_ w.
Proof. exact presets_positive. Qed.
Example C69_example_bound : forall w, In w good_whites -> bounded3 (14 / 10) (white_vec w).
Proof. exact presets_bounded. Qed.
Example C69_example_D65 : In (@wp_D65_2Degree R RArith) good_whites.
Proof. exact D65_good. Qed.

(** C70 *)
Theorem C70_space : forall o (m : method f32) X (h : heap f32) p c s a w0 b w, at_addr h p c -> @reachable f32 (F32 o) c -> cls c = X -> convertible X = true ->
  has_white h c s a w0 -> a <> b -> second_component m && grey X = false ->
  exists q r s' h', @adaptation f32 (F32 o) m (Some p) (Some (b, w)) h = (Ok (Some q), h') /\ fresh h q /\ at_addr h' q r /\ @wf_color f32 (F32 o) X r /\
    rgb_space r = Some (length (spaces h)) /\ rewhitened s s' b w /\ space_added h h' p s' /\ (X <> RGB_DEEP -> at_addr h' p c).
Proof. exact adaptation_run. Qed.
Print Assumptions C70_space.
Theorem C70_matrices : forall (m : method R) X (h : heap R) p c s a w0 b w, at_addr h p c -> wf_color X c -> convertible X = true ->
  has_white h c s a w0 -> a <> b -> second_component m && grey X = false -> nondegenerate (s_red s) (s_green s) (s_blue s) (white_xyz w) ->
  exists q r s' h', adaptation m (Some p) (Some (b, w)) h = (Ok (Some q), h') /\ at_addr h' q r /\ wf_color X r /\
    rgb_space r = Some (length (spaces h)) /\ rewhitened s s' b w /\ maps_properly s' (s_red s) (s_green s) (s_blue s) w /\ space_added h h' p s'.
Proof. exact adaptation_matrices. Qed.
Print Assumptions C70_matrices.
Example C70_example : exists (h : heap R) c s, at_addr h 0%nat c /\ wf_color XYZ c /\ has_white h c s 0%nat wp_D65_2Degree /\
  nondegenerate (s_red s) (s_green s) (s_blue s) (white_xyz wp_D50_2Degree).
Proof. exact matrices_example. Qed.

(** C71: full Bradford and full CMCCAT97 read past the end of the components of every grey colour *)
Theorem C71_grey_refuted : forall o (m : method f32) (h : heap f32) p c s a w0 b w, at_addr h p c -> @reachable f32 (F32 o) c -> grey (cls c) = true ->
  has_white h c s a w0 -> a <> b -> second_component m = true -> fst (@adaptation f32 (F32 o) m (Some p) (Some (b, w)) h) = Undef.
Proof. exact adaptation_grey. Qed.
Print Assumptions C71_grey_refuted.
Theorem C71_bradford_partial : forall o X (h : heap f32) p c s a w0 b w, at_addr h p c -> @reachable f32 (F32 o) c -> cls c = X -> convertible X = true ->
  has_white h c s a w0 -> a <> b -> grey X = false ->
  exists q r s' h', @bradford_adaptation f32 (F32 o) (Some p) (Some (b, w)) h = (Ok (Some q), h') /\ fresh h q /\ at_addr h' q r /\ @wf_color f32 (F32 o) X r /\
    rgb_space r = Some (length (spaces h)) /\ rewhitened s s' b w /\ space_added h h' p s' /\ (X <> RGB_DEEP -> at_addr h' p c).
Proof. exact (fun o => @adaptation_run o Bradford). Qed.
Print Assumptions C71_bradford_partial.
Example C71_example : forall o, exists (h : heap f32) c s, at_addr h 0%nat c /\ @reachable f32 (F32 o) c /\ grey (cls c) = true /\
  has_white h c s 0%nat (@wp_D65_2Degree f32 (F32 o)).
Proof. exact grey_example. Qed.

(** C110: the LCh types *)
Theorem C110_lch_refuted : forall o (m : method f32) (h : heap f32) p c s a w0 b w, at_addr h p c -> @reachable f32 (F32 o) c -> cls c = LCH_AB \/ cls c = LCH_UV ->
  has_white h c s a w0 -> a <> b -> exists h', @adaptation f32 (F32 o) m (Some p) (Some (b, w)) h = (Ok None, h').
Proof. exact adaptation_lch. Qed.
Print Assumptions C110_lch_refuted.
Example C110_example : forall o, exists (h : heap f32) c s, at_addr h 0%nat c /\ @reachable f32 (F32 o) c /\ cls c = LCH_AB /\
  has_white h c s 0%nat (@wp_D65_2Degree f32 (F32 o)).
Proof. exact lch_example. Qed.

(** C111 (unchanged unless of type RGB_DEEP: C70) *)
Theorem C111_unchanged_refuted : forall o (m : method f32), exists (h : heap f32) c c' b, at_addr h 0%nat c /\ @reachable f32 (F32 o) c /\ has_space h c /\
  (forall w, exists q h', @adaptation f32 (F32 o) m (Some 0%nat) (Some (b, w)) h = (Ok (Some q), h') /\ at_addr h' 0%nat c') /\
  comp_sat c 0 (fun x => is_value x (1 / 32)) /\ comp_sat c' 0 (fun x => is_finite x = true /\ (B2R x < 1 / 320)%R).
Proof. exact adaptation_darkens. Qed.
Print Assumptions C111_unchanged_refuted.

(** C112 *)
Theorem C112_alpha : forall o (m : method f32) X (h : heap f32) p c s a w0 b w, at_addr h p c -> @reachable f32 (F32 o) c -> cls c = X -> convertible X = true ->
  has_white h c s a w0 -> a <> b -> second_component m && grey X = false -> eight_bit X = false -> in_interval 0 1 (m_alpha c) -> ~ @black_hsl f32 (F32 o) c ->
  exists q r h', @adaptation f32 (F32 o) m (Some p) (Some (b, w)) h = (Ok (Some q), h') /\ at_addr h' q r /\ m_alpha r = m_alpha c.
Proof. exact adaptation_alpha. Qed.
Print Assumptions C112_alpha.

(** C113 *)
Theorem C113_linear : forall m (h : heap R) p c s a w0 b w v, simplified m = true -> at_addr h p c -> wf_color XYZ c -> has_white h c s a w0 -> a <> b -> comps_are c v ->
  exists q r h', adaptation m (Some p) (Some (b, w)) h = (Ok (Some q), h') /\ at_addr h' q r /\
    comps_are r (clamp100 (mat3 (method_inverse m) (mul3 (div3 (responses m w) (responses m w0)) (mat3 (method_matrix m) v)))).
Proof. exact linear_formula. Qed.
Print Assumptions C113_linear.
Theorem C113_xyz_scaling : forall (h : heap R) p c s a w0 b w v, at_addr h p c -> wf_color XYZ c -> has_white h c s a w0 -> a <> b -> comps_are c v ->
  exists q r h', adaptation XyzScale (Some p) (Some (b, w)) h = (Ok (Some q), h') /\ at_addr h' q r /\ wf_color XYZ r /\
    comps_are r (clamp100 (mul3 v (div3 (white_vec w) (white_vec w0)))).
Proof. exact xyz_scale_formula. Qed.
Print Assumptions C113_xyz_scaling.
Theorem C113_inverse : forall m v B, bounded3 B v ->
  let '(x, y, z) := mat3 (method_inverse m) (mat3 (method_matrix m) v) in let '(x', y', z') := v in
  Rabs (x - x') <= 15 / 1000000 * B /\ Rabs (y - y') <= 15 / 1000000 * B /\ Rabs (z - z') <= 15 / 1000000 * B.
Proof. exact inverse_near. Qed.
Print Assumptions C113_inverse.
Example C113_example : forall w0 x y z, 0 <= x <= 100 -> 0 <= y <= 100 -> 0 <= z <= 100 -> exists (h : heap R) c s, at_addr h 0%nat c /\ wf_color XYZ c /\ has_white h c s 0%nat w0 /\ comps_are c (x, y, z).
Proof. exact adapt_exampleR. Qed.

(** C114 (example: C113_example, C69_example_responses) *)
Theorem C114_same_value : forall m (h : heap R) p c s a w0 b v B, at_addr h p c -> wf_color XYZ c -> has_white h c s a w0 -> a <> b -> comps_are c v ->
  positive3 (responses m w0) -> 0 < ty_ w0 -> (second_component m = true -> snd (fst v) <> 0) -> bounded3 B v ->
  exists q r h', adaptation m (Some p) (Some (b, w0)) h = (Ok (Some q), h') /\ at_addr h' q r /\ comps_near (15 / 1000000 * B) r v.
Proof. exact same_white_near. Qed.
Print Assumptions C114_same_value.

(** C115 *)
Theorem C115_cat02 : forall f La (h : heap R) p c s a w0 b w B, at_addr h p c -> wf_color XYZ c -> has_white h c s a w0 -> a <> b ->
  comps_are c (white_vec w0) -> nonzero3 (responses Cat02Simplified w0) -> B <= 100 -> bounded3 B (white_vec w0) -> bounded3 B (white_vec w) ->
  exists q r h', adaptation (Cat02 f La) (Some p) (Some (b, w)) h = (Ok (Some q), h') /\ at_addr h' q r /\
    comps_near (15 / 1000000 * B) r (mix3 (cat02_degree f La) (white_vec w) (white_vec w0)).
Proof. exact cat02_white. Qed.
Print Assumptions C115_cat02.
Theorem C115_cmccat2000 : forall f La Lr (h : heap R) p c s a w0 b w B, at_addr h p c -> wf_color XYZ c -> has_white h c s a w0 -> a <> b ->
  comps_are c (white_vec w0) -> nonzero3 (responses Cmccat2000Simplified w0) -> B <= 100 -> bounded3 B (white_vec w0) -> bounded3 B (scale3 (ty_ w0 / ty_ w) (white_vec w)) ->
  exists q r h', adaptation (Cmccat2000 f La Lr) (Some p) (Some (b, w)) h = (Ok (Some q), h') /\ at_addr h' q r /\
    comps_near (15 / 1000000 * B) r (mix3 (cmccat2000_degree f La Lr) (scale3 (ty_ w0 / ty_ w) (white_vec w)) (white_vec w0)).
Proof. exact cmccat2000_white. Qed.
Print Assumptions C115_cmccat2000.
(** The luminance to be passed for a background of a given percentage of the white *)
Theorem C115_luminance : forall L p, calculate_adapting_luminance L 100 = L /\ calculate_adapting_luminance L 20 = L / 5 /\
  calculate_adapting_luminance L p * 100 = L * p.
Proof. exact adapting_luminance. Qed.
Print Assumptions C115_luminance.
Example C115_example : 0 < cat02_degree 1 60 < 1.
Proof. exact degree_example. Qed.

(** C116 *)
Theorem C116_bradford_white : forall (h : heap R) p c s a w0 b w B, at_addr h p c -> wf_color XYZ c -> has_white h c s a w0 -> a <> b ->
  comps_are c (white_vec w0) -> nonzero3 (responses Bradford w0) -> ty_ w0 <> 0 -> ty_ w <> 0 -> B <= 100 -> bounded3 B (scale3 (ty_ w0 / ty_ w) (white_vec w)) ->
  exists q r h', adaptation Bradford (Some p) (Some (b, w)) h = (Ok (Some q), h') /\ at_addr h' q r /\
    comps_near (15 / 1000000 * B) r (scale3 (ty_ w0 / ty_ w) (white_vec w)).
Proof. exact bradford_white. Qed.
Print Assumptions C116_bradford_white.

(** C117: a colour whose second component is zero becomes XYZ (100, 100, 100) *)
Theorem C117_black_refuted : forall o (m : method f32) (h : heap f32) p c s a w0 b w z, at_addr h p c -> @reachable f32 (F32 o) c -> cls c = XYZ ->
  has_white h c s a w0 -> a <> b -> second_component m = true -> nth_error (comps c) 1 = Some z -> is_value z 0 ->
  exists q r h', @adaptation f32 (F32 o) m (Some p) (Some (b, w)) h = (Ok (Some q), h') /\ at_addr h' q r /\
    comps r = [@fz f32 (F32 o) 100; @fz f32 (F32 o) 100; @fz f32 (F32 o) 100].
Proof. exact black_becomes_bright. Qed.
Print Assumptions C117_black_refuted.
Theorem C117_any_type_refuted : forall o (m : method f32) X (h : heap f32) p c s a w0 b w z, at_addr h p c -> @reachable f32 (F32 o) c -> cls c = X -> X <> RGB_DEEP -> convertible X = true ->
  has_white h c s a w0 -> a <> b -> second_component m = true -> nth_error (comps c) 1 = Some z -> is_value z 0 ->
  exists h2 k n, at_addr h2 k n /\ @wf_color f32 (F32 o) XYZ n /\ comps n = [@fz f32 (F32 o) 100; @fz f32 (F32 o) 100; @fz f32 (F32 o) 100] /\
    @adaptation f32 (F32 o) m (Some p) (Some (b, w)) h = @to_type f32 (F32 o) X (Some k) h2.
Proof. exact second_zero. Qed.
Print Assumptions C117_any_type_refuted.
Theorem C117_linear_partial : forall m (h : heap R) p c s a w0 b w, simplified m = true -> at_addr h p c -> wf_color XYZ c -> has_white h c s a w0 -> a <> b ->
  comps_are c (0, 0, 0) -> exists q r h', adaptation m (Some p) (Some (b, w)) h = (Ok (Some q), h') /\ at_addr h' q r /\ comps_are r (0, 0, 0).
Proof. exact linear_black. Qed.
Print Assumptions C117_linear_partial.
(** Examples: [C68_example] with components (0, 0, 0) (black) or (255, 0, 0) (red) *)
Example C117_example : forall o, is_value (clamp (AF := F32 o) (@fz f32 (F32 o) 0) (@fz f32 (F32 o) 255) (@fz f32 (F32 o) 0)) 0.
Proof. exact zero_clamped. Qed.

(** C118 *)
Theorem C118_null_refuted : forall o (m : method f32) (h : heap f32) p c s a w0, at_addr h p c -> @reachable f32 (F32 o) c ->
  has_white h c s a w0 -> fst (@adaptation f32 (F32 o) m (Some p) None h) = Undef.
Proof. exact adaptation_null. Qed.
Print Assumptions C118_null_refuted.

(** C119: both luminances zero *)
Theorem C119_dark_surround_refuted : forall o f X (h : heap f32) p c s a w0 b w, at_addr h p c -> @reachable f32 (F32 o) c -> cls c = X -> convertible X = true ->
  has_white h c s a w0 -> a <> b ->
  exists h2 k n, at_addr h2 k n /\ @wf_color f32 (F32 o) XYZ n /\ comps n = [@fz f32 (F32 o) 100; @fz f32 (F32 o) 100; @fz f32 (F32 o) 100] /\
    @adaptation f32 (F32 o) (Cmccat2000 f (@fz f32 (F32 o) 0) (@fz f32 (F32 o) 0)) (Some p) (Some (b, w)) h = @to_type f32 (F32 o) X (Some k) h2.
Proof. exact dark_surround. Qed.
Print Assumptions C119_dark_surround_refuted.
