(** * Properties C51 - C58, C87 - C89: adding, mixing, subtracting and averaging colours *)
From Coq Require Import ZArith QArith Reals Lra Lia List Bool Permutation.
From Flocq Require Import Core IEEE754.BinarySingleNaN.
From Verif Require Import Arith Outcome ColorModel GammaModel MatrixModel SpaceModel Heap Converter Calculation F32 RArith
  Spec Spec32 Spec_Matrix Spec_Conv Spec_Calc History.
From Verif Require Import Core2_Proofs Calc2_Proofs Calc3_Proofs Calc4_Proofs CalcEx_Proofs.
Import ListNotations.
Local Open Scope R_scope.

(** [rejects m h]: the call throws std::invalid_argument and leaves the heap as it is.
    [computes X m h c1 p2 pure]: the call returns a new colour of type X, all components
    in their documented range, in the RGB space of [c1]; no object except the one at
    [p2] changes, and under the condition [pure] not that one either.
    [typed_add X], ...: the overload for the class of type X; [add], [mix], [subtract]:
    the overloads on color_base. *)

(** C51 *)
Theorem C51_add : forall o X p1 p2 w1 w2 ia (h : heap f32), In X all_types -> outside_unit w1 \/ outside_unit w2 ->
  rejects (@add f32 (F32 o) p1 p2 w1 w2 ia) h /\ rejects (@typed_add f32 (F32 o) X p1 p2 w1 w2 ia) h.
Proof. exact add_rejects. Qed.
Print Assumptions C51_add.
Theorem C51_mix : forall o X p1 p2 w ia (h : heap f32), In X all_types -> outside_unit w ->
  rejects (@mix f32 (F32 o) p1 p2 w ia) h /\ rejects (@typed_mix f32 (F32 o) X p1 p2 w ia) h.
Proof. exact mix_rejects. Qed.
Print Assumptions C51_mix.
Theorem C51_subtract : forall o X p1 p2 w ia (h : heap f32), In X all_types -> outside_unit w ->
  rejects (@subtract f32 (F32 o) p1 p2 w ia) h /\ rejects (@typed_subtract f32 (F32 o) X p1 p2 w ia) h.
Proof. exact subtract_rejects. Qed.
Print Assumptions C51_subtract.
(** Weights inside are accepted: C53, C54. *)
Example C51_example : positive_unit (lit32 (1 # 2)) /\ in_interval 0 1 (lit32 (1 # 2)) /\ outside_unit (lit32 (2 # 1)) /\ outside_unit (lit32 (-1 # 1)).
Proof. exact weight_example. Qed.

(** C52: weight 0 is always rejected *)
Theorem C52_zero_refuted : forall o p1 p2 w ia (h : heap f32), is_value w 0 ->
  rejects (@mix f32 (F32 o) p1 p2 w ia) h /\ rejects (@subtract f32 (F32 o) p1 p2 w ia) h.
Proof. exact zero_rejects. Qed.
Print Assumptions C52_zero_refuted.

(** C53 *)
Theorem C53_add : forall o X Y ia (h : heap f32) p1 p2 c1 c2, at_addr h p1 c1 -> at_addr h p2 c2 ->
  @wf_color f32 (F32 o) X c1 -> @wf_color f32 (F32 o) Y c2 ->
  (cie X = true -> has_space h c1) -> (needs_space X Y = true -> has_space h c2) ->
  forall w1 w2, In X add_types -> in_interval 0 1 w1 -> in_interval 0 1 w2 ->
  computes X (@add f32 (F32 o) (Some p1) (Some p2) w1 w2 ia) h c1 p2 (X = Y \/ Y <> RGB_DEEP \/ cie X = false).
Proof. exact add_computes. Qed.
Print Assumptions C53_add.
Theorem C53_mix : forall o X Y ia (h : heap f32) p1 p2 c1 c2, at_addr h p1 c1 -> at_addr h p2 c2 ->
  @wf_color f32 (F32 o) X c1 -> @wf_color f32 (F32 o) Y c2 ->
  (cie X = true -> has_space h c1) -> (needs_space X Y = true -> has_space h c2) ->
  forall w, In X mix_types -> positive_unit w ->
  computes X (@mix f32 (F32 o) (Some p1) (Some p2) w ia) h c1 p2 (X = Y \/ Y <> RGB_DEEP \/ cie X = false).
Proof. exact mix_computes. Qed.
Print Assumptions C53_mix.
Theorem C53_subtract : forall o X Y ia (h : heap f32) p1 p2 c1 c2, at_addr h p1 c1 -> at_addr h p2 c2 ->
  @wf_color f32 (F32 o) X c1 -> @wf_color f32 (F32 o) Y c2 ->
  (cie X = true -> has_space h c1) -> (needs_space X Y = true -> has_space h c2) ->
  forall w, In X mix_types -> positive_unit w ->
  computes X (@subtract f32 (F32 o) (Some p1) (Some p2) w ia) h c1 p2 (X = Y \/ Y <> RGB_DEEP \/ cie X = false).
Proof. exact subtract_computes. Qed.
Print Assumptions C53_subtract.
(** The overloads for the fifteen classes. *)
Theorem C53_typed : forall o X ia (h : heap f32) p1 p2 c1 c2, at_addr h p1 c1 -> at_addr h p2 c2 ->
  @wf_color f32 (F32 o) X c1 -> (cie X = true -> has_space h c1) -> @wf_color f32 (F32 o) X c2 -> (cie X = true -> has_space h c2) ->
  forall w1 w2 w, in_interval 0 1 w1 -> in_interval 0 1 w2 -> in_interval 0 1 w ->
  computes X (@typed_add f32 (F32 o) X (Some p1) (Some p2) w1 w2 ia) h c1 p2 True /\
  computes X (@typed_mix f32 (F32 o) X (Some p1) (Some p2) w ia) h c1 p2 True /\
  computes X (@typed_subtract f32 (F32 o) X (Some p1) (Some p2) w ia) h c1 p2 True.
Proof. exact typed_computes. Qed.
Print Assumptions C53_typed.
Example C53_example : forall o, exists (h : heap f32) p1 c1 p2 c2, at_addr h p1 c1 /\ at_addr h p2 c2 /\
  @wf_color f32 (F32 o) XYZ c1 /\ @wf_color f32 (F32 o) RGB_DEEP c2 /\ has_space h c1 /\ has_space h c2 /\
  @reachable f32 (F32 o) c1 /\ in_interval 0 1 (m_alpha c1) /\ ~ @black_hsl f32 (F32 o) c1 /\ p1 <> p2.
Proof. exact calc_example. Qed.

(** C54: a null pointer for HSI and HCY; mix and subtract also for xyY and CIELUV *)
Theorem C54_all_types_refuted : forall o X p1 c1 p2 ia w1 w2 w (h : heap f32), at_addr h p1 c1 -> @wf_color f32 (F32 o) X c1 ->
  in_interval 0 1 w1 -> in_interval 0 1 w2 -> positive_unit w ->
  (In X [HSI; HCY] -> @add f32 (F32 o) (Some p1) p2 w1 w2 ia h = (Ok None, h)) /\
  (In X [HSI; HCY; XYY; CIELUV] -> @mix f32 (F32 o) (Some p1) p2 w ia h = (Ok None, h) /\ @subtract f32 (F32 o) (Some p1) p2 w ia h = (Ok None, h)).
Proof. exact unsupported. Qed.
Print Assumptions C54_all_types_refuted.

(** C55: the components of a mixture, from which the other statements follow *)
Theorem C55_formula : forall X w ia (h : heap R) p1 p2 c1 c2, In X mix_exact_types -> 0 <= w <= 1 ->
  at_addr h p1 c1 -> at_addr h p2 c2 -> wf_color X c1 -> wf_color X c2 ->
  (eight_bit X = true -> 0 <= m_alpha c1 <= 1 /\ 0 <= m_alpha c2 <= 1) ->
  returns (typed_mix X (Some p1) (Some p2) w ia) h (fun r => ty r = X /\ comps r = map2 (mix_value X w) (comps c1) (comps c2) /\
    alpha r = (if ia then mix_value X w (alpha c1) (alpha c2) else alpha c1) /\ rgb_space r = rgb_space c1).
Proof. exact mix_formula. Qed.
Print Assumptions C55_formula.
Theorem C55_self : forall X w ia (h : heap R) p1 p2 c1 c2, In X mix_exact_types ->
  at_addr h p1 c1 -> at_addr h p2 c2 -> wf_color X c1 -> wf_color X c2 -> 0 <= m_alpha c1 <= 1 -> 0 <= m_alpha c2 <= 1 ->
  0 <= w <= 1 -> comps c2 = comps c1 -> m_alpha c2 = m_alpha c1 ->
  returns (typed_mix X (Some p1) (Some p2) w ia) h (fun r => ty r = X /\ comps r = comps c1 /\ alpha r = alpha c1 /\ rgb_space r = rgb_space c1).
Proof. exact mix_self. Qed.
Print Assumptions C55_self.
Theorem C55_one : forall X ia (h : heap R) p1 p2 c1 c2, In X mix_exact_types ->
  at_addr h p1 c1 -> at_addr h p2 c2 -> wf_color X c1 -> wf_color X c2 -> 0 <= m_alpha c1 <= 1 -> 0 <= m_alpha c2 <= 1 ->
  returns (typed_mix X (Some p1) (Some p2) 1 ia) h (fun r => ty r = X /\ comps r = comps c1 /\ alpha r = alpha c1 /\ rgb_space r = rgb_space c1).
Proof. exact mix_one. Qed.
Print Assumptions C55_one.
(** mix(c, d, w) and mix(d, c, 1 - w) agree. *)
Theorem C55_symmetric : forall X w (h : heap R) p1 p2 c1 c2, In X mix_exact_types ->
  at_addr h p1 c1 -> at_addr h p2 c2 -> wf_color X c1 -> wf_color X c2 -> 0 <= m_alpha c1 <= 1 -> 0 <= m_alpha c2 <= 1 ->
  0 <= w <= 1 -> exists q1 r1 h1 q2 r2 h2,
  typed_mix X (Some p1) (Some p2) w true h = (Ok (Some q1), h1) /\ at_addr h1 q1 r1 /\
  typed_mix X (Some p2) (Some p1) (1 - w) true h = (Ok (Some q2), h2) /\ at_addr h2 q2 r2 /\
  comps r1 = comps r2 /\ alpha r1 = alpha r2.
Proof. exact mix_sym. Qed.
Print Assumptions C55_symmetric.
(** The overload on color_base does the same. *)
Theorem C55_generic : forall X w ia (h : heap R) p1 p2 c1 c2, In X mix_types -> 0 < w <= 1 ->
  at_addr h p1 c1 -> at_addr h p2 c2 -> wf_color X c1 -> wf_color X c2 ->
  mix (Some p1) (Some p2) w ia h = typed_mix X (Some p1) (Some p2) w ia h.
Proof. exact mix_typed. Qed.
Print Assumptions C55_generic.
Example C55_example : exists (h : heap R) c1 c2, at_addr h 0%nat c1 /\ at_addr h 1%nat c2 /\ wf_color CMYK c1 /\ wf_color CMYK c2 /\
  0 <= m_alpha c1 <= 1 /\ 0 <= m_alpha c2 <= 1 /\ comps c1 <> comps c2.
Proof. exact mix_example. Qed.

(** C56 *)
Theorem C56_empty : forall o X ia (h : heap f32), X <> UNDEFINED -> rejects (@average f32 (F32 o) X [] ia) h.
Proof. intros o. exact (average_empty (AF := F32 o)). Qed.
Print Assumptions C56_empty.
Theorem C56_total : forall o X ia (h : heap f32) ps p c cs, In X all_types ->
  points_to h (p :: ps) (c :: cs) -> Forall (@wf_color f32 (F32 o) X) (c :: cs) ->
  exists q r h', @average f32 (F32 o) X (p :: ps) ia h = (Ok (Some q), h') /\ fresh h q /\ at_addr h' q r /\ colour_of_type X r /\
    rgb_space r = rgb_space c /\ unchanged h h'.
Proof. exact average_total. Qed.
Print Assumptions C56_total.
Theorem C56_means : forall X ia (h : heap R) p ps c cs, In X all_types -> points_to h (p :: ps) (c :: cs) -> Forall (wf_color X) (c :: cs) ->
  (eight_bit X = true -> Forall (fun c => 0 <= m_alpha c <= 1) (c :: cs)) ->
  returns (average X (p :: ps) ia) h (fun r => ty r = X /\ comps r = map (fun i => mean (components i (c :: cs))) (seq 0 (arity X)) /\
    rgb_space r = rgb_space c /\ (ia = false -> alpha r = alpha c) /\ (ia = true -> X <> CMYK -> alpha r = mean (map alpha (c :: cs)))).
Proof. exact average_means. Qed.
Print Assumptions C56_means.
Theorem C56_order : forall X (h : heap R) ps cs ps' cs', In X all_types -> X <> CMYK -> ps <> [] ->
  points_to h ps cs -> points_to h ps' cs' -> Permutation cs cs' ->
  Forall (wf_color X) cs -> (eight_bit X = true -> Forall (fun c => 0 <= m_alpha c <= 1) cs) ->
  exists q r h1 q' r' h2, average X ps true h = (Ok (Some q), h1) /\ at_addr h1 q r /\ average X ps' true h = (Ok (Some q'), h2) /\ at_addr h2 q' r' /\
    comps r = comps r' /\ alpha r = alpha r'.
Proof. exact average_order. Qed.
Print Assumptions C56_order.
Example C56_example : exists (h : heap R) ps cs, points_to h ps cs /\ Forall (wf_color CMYK) cs /\
  map alpha cs = [1; 1] /\ components 3 cs = [0; 1].
Proof. exact average_example. Qed.

(** C57 *)
Theorem C57_cmyk_alpha_refuted : exists (h : heap R) ps cs, points_to h ps cs /\ Forall (wf_color CMYK) cs /\ map alpha cs = [1; 1] /\
  returns (average_cmyk ps true) h (fun r => alpha r = 1 / 2).
Proof. exact cmyk_alpha_wrong. Qed.
Print Assumptions C57_cmyk_alpha_refuted.
(** What it is instead. *)
Theorem C57_formula : forall (h : heap R) p ps c cs, points_to h (p :: ps) (c :: cs) -> Forall (wf_color CMYK) (c :: cs) ->
  returns (average_cmyk (p :: ps) true) h (fun r =>
    alpha r = mean (components 3 (c :: cs)) + alpha (last (c :: cs) c) / INR (length (c :: cs))).
Proof. exact cmyk_alpha_formula. Qed.
Print Assumptions C57_formula.

(** C58 *)
Theorem C58_include_alpha_refuted : forall o, exists (h : heap f32) c u, at_addr h 0%nat c /\ @reachable f32 (F32 o) c /\ ty c = HSL /\
  is_value (m_alpha c) 1 /\ is_value u 1 /\
  returns (@subtract_hsl f32 (F32 o) (Some 0%nat) (Some 0%nat) u true) h (fun r => is_value (m_alpha r) 1).
Proof. exact subtract_alpha_wrong. Qed.
Print Assumptions C58_include_alpha_refuted.
Theorem C58_ignored : forall o X p1 p2 w (h : heap f32), In X [HSI; HSL; HCY; LAB; LCH_AB; LCH_UV] ->
  @typed_subtract f32 (F32 o) X p1 p2 w true h = @typed_subtract f32 (F32 o) X p1 p2 w false h.
Proof. exact subtract_ignores_alpha. Qed.
Print Assumptions C58_ignored.

(** C87 *)
Theorem C87_add : forall o X Y (h : heap f32) p1 p2 c1 c2, at_addr h p1 c1 -> at_addr h p2 c2 ->
  @wf_color f32 (F32 o) X c1 -> @wf_color f32 (F32 o) Y c2 ->
  (cie X = true -> has_space h c1) -> (needs_space X Y = true -> has_space h c2) ->
  @reachable f32 (F32 o) c1 -> in_interval 0 1 (m_alpha c1) -> ~ @black_hsl f32 (F32 o) c1 ->
  forall w1 w2, In X add_types -> in_interval 0 1 w1 -> in_interval 0 1 w2 ->
  returns (@add f32 (F32 o) (Some p1) (Some p2) w1 w2 false) h (fun r => m_alpha r = m_alpha c1).
Proof. exact add_keeps. Qed.
Print Assumptions C87_add.
Theorem C87_mix : forall o X Y (h : heap f32) p1 p2 c1 c2, at_addr h p1 c1 -> at_addr h p2 c2 ->
  @wf_color f32 (F32 o) X c1 -> @wf_color f32 (F32 o) Y c2 ->
  (cie X = true -> has_space h c1) -> (needs_space X Y = true -> has_space h c2) ->
  @reachable f32 (F32 o) c1 -> in_interval 0 1 (m_alpha c1) -> ~ @black_hsl f32 (F32 o) c1 ->
  forall w, In X mix_types -> positive_unit w ->
  returns (@mix f32 (F32 o) (Some p1) (Some p2) w false) h (fun r => m_alpha r = m_alpha c1).
Proof. exact mix_keeps. Qed.
Print Assumptions C87_mix.
Theorem C87_subtract : forall o X Y (h : heap f32) p1 p2 c1 c2, at_addr h p1 c1 -> at_addr h p2 c2 ->
  @wf_color f32 (F32 o) X c1 -> @wf_color f32 (F32 o) Y c2 ->
  (cie X = true -> has_space h c1) -> (needs_space X Y = true -> has_space h c2) ->
  @reachable f32 (F32 o) c1 -> in_interval 0 1 (m_alpha c1) -> ~ @black_hsl f32 (F32 o) c1 ->
  forall w, In X mix_types -> positive_unit w ->
  returns (@subtract f32 (F32 o) (Some p1) (Some p2) w false) h (fun r => m_alpha r = m_alpha c1).
Proof. exact subtract_keeps. Qed.
Print Assumptions C87_subtract.
Theorem C87_typed : forall o X (h : heap f32) p1 p2 c1 c2, at_addr h p1 c1 -> at_addr h p2 c2 ->
  @wf_color f32 (F32 o) X c1 -> (cie X = true -> has_space h c1) -> @wf_color f32 (F32 o) X c2 -> (cie X = true -> has_space h c2) ->
  @reachable f32 (F32 o) c1 -> in_interval 0 1 (m_alpha c1) -> ~ @black_hsl f32 (F32 o) c1 ->
  forall w1 w2 w, in_interval 0 1 w1 -> in_interval 0 1 w2 -> in_interval 0 1 w ->
  returns (@typed_add f32 (F32 o) X (Some p1) (Some p2) w1 w2 false) h (fun r => m_alpha r = m_alpha c1) /\
  returns (@typed_mix f32 (F32 o) X (Some p1) (Some p2) w false) h (fun r => m_alpha r = m_alpha c1) /\
  returns (@typed_subtract f32 (F32 o) X (Some p1) (Some p2) w false) h (fun r => m_alpha r = m_alpha c1).
Proof. exact typed_keeps. Qed.
Print Assumptions C87_typed.
(** Example: [C53_example]. *)

(** C88: NaN is accepted as a weight, for all colours *)
Theorem C88_nan_rejected_refuted : forall o X Y ia (h : heap f32) p1 c1 p2 c2, at_addr h p1 c1 -> at_addr h p2 c2 ->
  @wf_color f32 (F32 o) X c1 -> @wf_color f32 (F32 o) Y c2 ->
  (cie X = true -> has_space h c1) -> (needs_space X Y = true -> has_space h c2) -> In X mix_types ->
  let pure := X = Y \/ Y <> RGB_DEEP \/ cie X = false in
  computes X (@add f32 (F32 o) (Some p1) (Some p2) nan32 nan32 ia) h c1 p2 pure /\
  computes X (@mix f32 (F32 o) (Some p1) (Some p2) nan32 ia) h c1 p2 pure /\
  computes X (@subtract f32 (F32 o) (Some p1) (Some p2) nan32 ia) h c1 p2 pure.
Proof. exact nan_accepted. Qed.
Print Assumptions C88_nan_rejected_refuted.
(** Example: [C53_example]. *)

(** C89 *)
Theorem C89_alpha_range_refuted : forall o, exists (h : heap f32) c q1 r1 h1 q2 r2 h2 u,
  at_addr h 0%nat c /\ @reachable f32 (F32 o) c /\ is_value (m_alpha c) 1 /\ is_value u 1 /\
  @add f32 (F32 o) (Some 0%nat) (Some 0%nat) u u true h = (Ok (Some q1), h1) /\ at_addr h1 q1 r1 /\ is_value (m_alpha r1) 2 /\
  exists d, at_addr h 1%nat d /\ @reachable f32 (F32 o) d /\ is_value (m_alpha d) 0 /\
  @subtract f32 (F32 o) (Some 1%nat) (Some 0%nat) u true h = (Ok (Some q2), h2) /\ at_addr h2 q2 r2 /\ is_value (m_alpha r2) (-1).
Proof. exact alpha_leaves. Qed.
Print Assumptions C89_alpha_range_refuted.
