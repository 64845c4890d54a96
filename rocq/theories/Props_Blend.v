(** * Properties C59 - C67, C90 - C94: Porter-Duff operators and blend modes *)
From Coq Require Import ZArith QArith Reals Lra Lia List Bool.
From Flocq Require Import Core IEEE754.BinarySingleNaN.
From Verif Require Import Arith Outcome ColorModel GammaModel MatrixModel SpaceModel Heap Converter Calculation Blend F32 RArith
  Spec Spec32 Spec_Matrix Spec_Conv Spec_Calc Spec_Blend History.
From Verif Require Import Blend2_Proofs Blend3_Proofs BlendHcy_Proofs Blend4_Proofs.
Import ListNotations.
Local Open Scope R_scope.

(** [composite p]: the function of the class porter_duff for operator [p]; [blend m]: the
    function of color_blend for the component-wise mode [m]; [blend_hcy m]: for the modes
    hue, saturation, color, luminosity.
    [rejects m h]: throws std::invalid_argument and leaves the heap as it is.
    [makes X m h sp]: returns a new colour of type X in space [sp], nothing else changes. *)

(** C59 *)
Theorem C59_null : forall o m q p us ud (h : heap f32),
  (rejects (@blend f32 (F32 o) m None p us ud) h /\ rejects (@blend f32 (F32 o) m p None us ud) h) /\
  (rejects (@composite f32 (F32 o) q None p) h /\ rejects (@composite f32 (F32 o) q p None) h).
Proof. intros o m q p us ud h. exact (conj (blend_null o m p us ud h) (pd_null o q p h)). Qed.
Print Assumptions C59_null.
Theorem C59_spaces : forall o m q us ud (h : heap f32) p1 c1 p2 c2, at_addr h p1 c1 -> at_addr h p2 c2 -> rgb_space c1 <> rgb_space c2 ->
  rejects (@blend f32 (F32 o) m (Some p1) (Some p2) us ud) h /\ rejects (@composite f32 (F32 o) q (Some p1) (Some p2)) h.
Proof. intros o m q us ud h p1 c1 p2 c2 H1 H2 N. exact (conj (blend_spaces o m us ud h p1 c1 p2 c2 H1 H2 N) (pd_spaces o q h p1 c1 p2 c2 H1 H2 N)). Qed.
Print Assumptions C59_spaces.
Theorem C59_blend_accepts : forall o m us ud (h : heap f32) X1 X2 p1 c1 p2 c2, at_addr h p1 c1 -> at_addr h p2 c2 ->
  @wf_color f32 (F32 o) X1 c1 -> @wf_color f32 (F32 o) X2 c2 -> rgb_space c1 = rgb_space c2 -> (cie X1 || cie X2 = true -> has_space h c1) ->
  convertible X1 = true -> makes X1 (@blend f32 (F32 o) m (Some p1) (Some p2) us ud) h (rgb_space c1).
Proof. exact blend_makes. Qed.
Print Assumptions C59_blend_accepts.
Theorem C59_composite_accepts : forall o q (h : heap f32) X1 X2 p1 c1 p2 c2, at_addr h p1 c1 -> at_addr h p2 c2 ->
  @wf_color f32 (F32 o) X1 c1 -> @wf_color f32 (F32 o) X2 c2 -> rgb_space c1 = rgb_space c2 -> (cie X1 || cie X2 = true -> has_space h c1) ->
  convertible X1 = true -> makes X1 (@composite f32 (F32 o) q (Some p1) (Some p2)) h (rgb_space c1).
Proof. exact pd_makes. Qed.
Print Assumptions C59_composite_accepts.
(** For source colours of type LCh the result is a null pointer (C92), not an exception. *)
Example C59_example : forall o, exists (h : heap f32) c1 c2, at_addr h 0%nat c1 /\ at_addr h 1%nat c2 /\
  @wf_color f32 (F32 o) RGB_DEEP c1 /\ @wf_color f32 (F32 o) RGB_DEEP c2 /\
  is_value (m_alpha c1) 1 /\ is_value (m_alpha c2) 1 /\ in_interval 0 1 (m_alpha c1) /\ rgb_space c1 = rgb_space c2 /\ has_space h c1 /\ comps c1 <> comps c2.
Proof. exact blend_example. Qed.

(** C60 *)
Theorem C60_formula : forall p (h : heap R) p1 c1 p2 c2, at_addr h p1 c1 -> at_addr h p2 c2 -> wf_color RGB_DEEP c1 -> wf_color RGB_DEEP c2 ->
  0 <= alpha c1 <= 1 -> 0 <= alpha c2 <= 1 -> rgb_space c1 = rgb_space c2 ->
  returns (composite p (Some p1) (Some p2)) h (pd_result p c1 c2).
Proof. exact pd_formula. Qed.
Print Assumptions C60_formula.
Example C60_example : exists (h : heap R) c1 c2, at_addr h 0%nat c1 /\ at_addr h 1%nat c2 /\ wf_color RGB_DEEP c1 /\ wf_color RGB_DEEP c2 /\
  alpha c1 = 1 /\ alpha c2 = 1 / 2 /\ rgb_space c1 = rgb_space c2 /\ comps c1 <> comps c2.
Proof. exact blend_exampleR. Qed.

(** C61 *)
Theorem C61_range : forall o p (h : heap f32) p1 c1 p2 c2, at_addr h p1 c1 -> at_addr h p2 c2 ->
  @wf_color f32 (F32 o) RGB_DEEP c1 -> @wf_color f32 (F32 o) RGB_DEEP c2 -> in_interval 0 1 (m_alpha c1) -> in_interval 0 1 (m_alpha c2) ->
  rgb_space c1 = rgb_space c2 ->
  returns (@composite f32 (F32 o) p (Some p1) (Some p2)) h (fun r => colour_of_type RGB_DEEP r /\ in_interval 0 1 (m_alpha r)).
Proof. exact pd_range. Qed.
Print Assumptions C61_range.

(** C62 *)
Theorem C62_dual : forall p (h : heap R) p1 c1 p2 c2, at_addr h p1 c1 -> at_addr h p2 c2 -> wf_color RGB_DEEP c1 -> wf_color RGB_DEEP c2 ->
  0 <= alpha c1 <= 1 -> 0 <= alpha c2 <= 1 -> rgb_space c1 = rgb_space c2 ->
  returns (composite (dual p) (Some p1) (Some p2)) h (fun r =>
    returns (composite p (Some p2) (Some p1)) h (fun r' => comps r = comps r' /\ alpha r = alpha r')).
Proof. exact pd_dual. Qed.
Print Assumptions C62_dual.
Theorem C62_over_opaque : forall (h : heap R) p1 c1 p2 c2, at_addr h p1 c1 -> at_addr h p2 c2 -> wf_color RGB_DEEP c1 -> wf_color RGB_DEEP c2 ->
  alpha c1 = 1 -> 0 <= alpha c2 <= 1 -> rgb_space c1 = rgb_space c2 ->
  returns (over (Some p1) (Some p2)) h (fun r => comps r = comps c1 /\ alpha r = 1).
Proof. exact over_opaque. Qed.
Print Assumptions C62_over_opaque.
Theorem C62_clear : forall (h : heap R) p1 c1 p2 c2, at_addr h p1 c1 -> at_addr h p2 c2 -> wf_color RGB_DEEP c1 -> wf_color RGB_DEEP c2 ->
  0 <= alpha c1 <= 1 -> 0 <= alpha c2 <= 1 -> rgb_space c1 = rgb_space c2 ->
  returns (clear (Some p1) (Some p2)) h (fun r => comps r = [0; 0; 0] /\ alpha r = 0).
Proof. exact clear_black. Qed.
Print Assumptions C62_clear.

(** C63: [blend_function m] is the function of the mode, [unit_clamp] clamps to [0, 1] *)
Theorem C63_opaque : forall o m us ud (h : heap f32) p1 c1 p2 c2, at_addr h p1 c1 -> at_addr h p2 c2 ->
  @wf_color f32 (F32 o) RGB_DEEP c1 -> @wf_color f32 (F32 o) RGB_DEEP c2 -> is_value (m_alpha c1) 1 -> is_value (m_alpha c2) 1 ->
  rgb_space c1 = rgb_space c2 ->
  returns (@blend f32 (F32 o) m (Some p1) (Some p2) us ud) h (fun r => is_value (m_alpha r) 1 /\
    forall i s d, nth_error (comps c1) i = Some s -> nth_error (comps c2) i = Some d ->
      comp_sat r i (fun v => is_value v (unit_clamp (@blend_function f32 (F32 o) m c1 c2 i s d)))).
Proof. exact opaque_blend. Qed.
Print Assumptions C63_opaque.

(** C64 *)
Theorem C64_laws : forall s d : R, 0 <= s <= 1 -> 0 <= d <= 1 ->
  multiply_func s d = multiply_func d s /\ screen_func s d = screen_func d s /\ darken_func s d = darken_func d s /\
  lighten_func s d = lighten_func d s /\ difference_func s d = difference_func d s /\ exclusion_func s d = exclusion_func d s /\
  multiply_func 1 d = d /\ screen_func 0 d = d /\ overlay_func s d = hard_light_func d s /\ difference_func s s = 0.
Proof. exact blend_laws. Qed.
Print Assumptions C64_laws.
Theorem C64_textbook : forall (m : mode R) t c1 c2 i s d, textbook m = Some t -> 0 <= s <= 1 -> 0 <= d <= 1 ->
  blend_function m c1 c2 i s d = t s d.
Proof. exact textbook_agrees. Qed.
Print Assumptions C64_textbook.
Theorem C64_bounded : forall (m : mode R) c1 c2 i s d, bounded_exact m = true -> 0 <= s <= 1 -> 0 <= d <= 1 ->
  0 <= blend_function m c1 c2 i s d <= 1.
Proof. exact bounded_maps. Qed.
Print Assumptions C64_bounded.
Example C64_example : textbook (HardLight (F := R)) = Some hard_light /\ bounded_exact Exclusion = true /\ hard_light (1 / 4) (1 / 2) = 1 / 4.
Proof. split; [reflexivity|]. split; [reflexivity|]. unfold hard_light. destruct (Rle_dec (1 / 4) (1 / 2)); lra. Qed.

(** C65 *)
Theorem C65_color_burn_refuted : exists s d : R, 0 < s <= 1 /\ 0 <= d <= 1 /\ color_burn_func s d <> 1 - Rmin 1 ((1 - d) / s).
Proof. exact burn_wrong. Qed.
Print Assumptions C65_color_burn_refuted.
(** It is inverted everywhere. *)
Theorem C65_color_burn_inverted : forall s d : R, 0 <= s <= 1 -> 0 <= d <= 1 -> color_burn_func s d = 1 - burn s d.
Proof. exact burn_inverted. Qed.
Print Assumptions C65_color_burn_inverted.
(** Soft light jumps at source 1/2 and does not keep a black backdrop. *)
Theorem C65_soft_light_refuted : exists d : R, 0 <= d <= 1 /\
  (forall eps, 0 < eps <= 1 / 2 -> soft_light_func (1 / 2 + eps) d - soft_light_func (1 / 2) d >= 1 / 4) /\ soft_light_func 1 0 = 1 / 2.
Proof. exact soft_light_wrong. Qed.
Print Assumptions C65_soft_light_refuted.
(** [soft_light] is the usual simple form; the code agrees with it for sources up to 1/2. *)
Theorem C65_soft_light_deviation : forall s d : R, 0 <= s <= 1 -> 0 <= d <= 1 ->
  soft_light_func s d = soft_light s d + (if Rle_dec s (1 / 2) then 0 else 2 * (1 - s) * (1 - d)).
Proof. exact soft_light_deviation. Qed.
Print Assumptions C65_soft_light_deviation.

(** C66 *)
Theorem C66_range_refuted : forall o, exists (h : heap f32) c1 c2, at_addr h 0%nat c1 /\ at_addr h 1%nat c2 /\
  @wf_color f32 (F32 o) RGB_DEEP c1 /\ @wf_color f32 (F32 o) RGB_DEEP c2 /\
  in_interval 0 1 (m_alpha c1) /\ in_interval 0 1 (m_alpha c2) /\ rgb_space c1 = rgb_space c2 /\
  returns (@blend f32 (F32 o) LinearDodge (Some 0%nat) (Some 1%nat) true true) h (fun r => comp_sat r 0 (fun v => is_finite v = true /\ 1 < B2R v)).
Proof. exact dodge_out. Qed.
Print Assumptions C66_range_refuted.
(** True for the thirteen modes whose function is bounded. *)
Theorem C66_range_partial : forall o m us ud (h : heap f32) p1 c1 p2 c2, at_addr h p1 c1 -> at_addr h p2 c2 ->
  @wf_color f32 (F32 o) RGB_DEEP c1 -> @wf_color f32 (F32 o) RGB_DEEP c2 -> in_interval 0 1 (m_alpha c1) -> in_interval 0 1 (m_alpha c2) ->
  rgb_space c1 = rgb_space c2 -> bounded m = true ->
  returns (@blend f32 (F32 o) m (Some p1) (Some p2) us ud) h (fun r => colour_of_type RGB_DEEP r /\ in_interval 0 1 (m_alpha r)).
Proof. exact blend_range. Qed.
Print Assumptions C66_range_partial.

(** C67 *)
Theorem C67_null_refuted : forall o m p us ud (h : heap f32), fst (@blend_hcy f32 (F32 o) m None p us ud h) = Undef.
Proof. exact hcy_null. Qed.
Print Assumptions C67_null_refuted.
Theorem C67_spaces_refuted : forall o, exists (h : heap f32) c1 c2, at_addr h 0%nat c1 /\ at_addr h 1%nat c2 /\
  @wf_color f32 (F32 o) RGB_DEEP c1 /\ @wf_color f32 (F32 o) RGB_DEEP c2 /\ rgb_space c1 <> rgb_space c2 /\
  forall m us ud, returns (@blend_hcy f32 (F32 o) m (Some 0%nat) (Some 1%nat) us ud) h (colour_of_type RGB_DEEP).
Proof. exact hcy_spaces. Qed.
Print Assumptions C67_spaces_refuted.

(** C90: destination only is the operator atop, not dest *)
Theorem C90_normal_partial : forall o p1 p2,
  @blend f32 (F32 o) Normal p1 p2 true true = @composite f32 (F32 o) Over p1 p2 /\
  @blend f32 (F32 o) Normal p1 p2 true false = @composite f32 (F32 o) Src p1 p2 /\
  @blend f32 (F32 o) Normal p1 p2 false true = @composite f32 (F32 o) Atop p1 p2 /\
  @blend f32 (F32 o) Normal p1 p2 false false = @composite f32 (F32 o) In_ p1 p2.
Proof. exact normal_operators. Qed.
Print Assumptions C90_normal_partial.
Theorem C90_destination_only_refuted : exists (h : heap R) c1 c2, at_addr h 0%nat c1 /\ at_addr h 1%nat c2 /\
  wf_color RGB_DEEP c1 /\ wf_color RGB_DEEP c2 /\ rgb_space c1 = rgb_space c2 /\
  returns (@blend R RArith Normal (Some 0%nat) (Some 1%nat) false true) h (fun r => comps r = [0; 0; 0] /\ alpha r = 1 / 2) /\
  returns (@composite R RArith Dest (Some 0%nat) (Some 1%nat)) h (fun r => comps r = [1; 1; 1] /\ alpha r = 1 / 2).
Proof. exact normal_not_dest. Qed.
Print Assumptions C90_destination_only_refuted.

(** C91 *)
Theorem C91_vivid_light_refuted : vivid_light 0 (1 / 2) = 0 /\ vivid_light_func 0 (1 / 2) = 1 / 2.
Proof. exact vivid_wrong. Qed.
Print Assumptions C91_vivid_light_refuted.
(** After the clamping of the result (C63): dodge and burn are exchanged, and source 1
    gives black. *)
Theorem C91_vivid_light_deviation : forall s d : R, 0 <= s <= 1 -> 0 <= d <= 1 ->
  Rmax 0 (Rmin 1 (vivid_light_func s d)) =
  if Rle_dec s (1 / 2) then dodge (2 * s) d else if Req_EM_T s 1 then (if Req_EM_T d 1 then 1 else 0) else burn (2 * s - 1) d.
Proof. exact vivid_deviation. Qed.
Print Assumptions C91_vivid_light_deviation.

(** C92 *)
Theorem C92_lch_refuted : forall o m q us ud (h : heap f32) X1 X2 p1 c1 p2 c2, at_addr h p1 c1 -> at_addr h p2 c2 ->
  @wf_color f32 (F32 o) X1 c1 -> @wf_color f32 (F32 o) X2 c2 -> rgb_space c1 = rgb_space c2 -> has_space h c1 -> convertible X1 = false ->
  (exists h', @blend f32 (F32 o) m (Some p1) (Some p2) us ud h = (Ok None, h')) /\
  (exists h', @composite f32 (F32 o) q (Some p1) (Some p2) h = (Ok None, h')).
Proof. exact lch_no_colour. Qed.
Print Assumptions C92_lch_refuted.
Example C92_example : forall o, exists (h : heap f32) c1 c2, at_addr h 0%nat c1 /\ at_addr h 1%nat c2 /\
  @wf_color f32 (F32 o) LCH_AB c1 /\ @wf_color f32 (F32 o) XYZ c2 /\ rgb_space c1 = rgb_space c2 /\ has_space h c1 /\ convertible LCH_AB = false /\
  @reachable f32 (F32 o) c1 /\ @reachable f32 (F32 o) c2 /\ in_interval 0 1 (m_alpha c2) /\ ~ @black_hsl f32 (F32 o) c2.
Proof. exact lch_example. Qed.

(** C93 *)
Theorem C93_formula : forall m us ud (h : heap R) p1 c1 p2 c2, at_addr h p1 c1 -> at_addr h p2 c2 -> wf_color RGB_DEEP c1 -> wf_color RGB_DEEP c2 ->
  0 <= alpha c1 <= 1 -> 0 <= alpha c2 <= 1 -> rgb_space c1 = rgb_space c2 ->
  (forall i s d, 0 <= s <= 1 -> 0 <= d <= 1 -> 0 <= blend_function m c1 c2 i s d <= 1) ->
  returns (blend m (Some p1) (Some p2) us ud) h (blend_result m us ud c1 c2).
Proof. exact blend_formula. Qed.
Print Assumptions C93_formula.
Theorem C93_bounded_modes : forall m us ud (h : heap R) p1 c1 p2 c2, at_addr h p1 c1 -> at_addr h p2 c2 -> wf_color RGB_DEEP c1 -> wf_color RGB_DEEP c2 ->
  0 <= alpha c1 <= 1 -> 0 <= alpha c2 <= 1 -> rgb_space c1 = rgb_space c2 -> bounded_exact m = true ->
  returns (blend m (Some p1) (Some p2) us ud) h (blend_result m us ud c1 c2).
Proof. exact blend_bounded_formula. Qed.
Print Assumptions C93_bounded_modes.

(** C94 *)
Theorem C94_total : forall o m us ud (h : heap f32) X1 X2 p1 c1 p2 c2, at_addr h p1 c1 -> at_addr h p2 c2 ->
  @wf_color f32 (F32 o) X1 c1 -> @wf_color f32 (F32 o) X2 c2 ->
  (cie X1 = true -> has_space h c1) -> (cie X2 = true -> has_space h c2) -> convertible X1 = true ->
  exists q r h', @blend_hcy f32 (F32 o) m (Some p1) (Some p2) us ud h = (Ok (Some q), h') /\ fresh h q /\ at_addr h' q r /\
    colour_of_type X1 r /\ rgb_space r = rgb_space c1 /\ unchanged h h'.
Proof. exact hcy_makes. Qed.
Print Assumptions C94_total.
Theorem C94_values : forall o m us ud (h : heap f32) p1 c1 p2 c2 sh sc sy dh dc dy, at_addr h p1 c1 -> at_addr h p2 c2 ->
  @wf_color f32 (F32 o) HCY c1 -> @wf_color f32 (F32 o) HCY c2 -> comps c1 = [sh; sc; sy] -> comps c2 = [dh; dc; dy] ->
  returns (@blend_hcy f32 (F32 o) m (Some p1) (Some p2) us ud) h (fun r => ty r = HCY /\ m_alpha r = m_alpha c1 /\
    let '(x, y, z) := @hcy_pick f32 m (sh, sc, sy) (dh, dc, dy) in
    comp_sat r 0 (fun v => is_value v (B2R x)) /\ comp_sat r 1 (fun v => is_value v (B2R y)) /\ comp_sat r 2 (fun v => is_value v (B2R z))).
Proof. exact hcy_values. Qed.
Print Assumptions C94_values.
