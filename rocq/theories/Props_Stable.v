(** * Properties: small changes of a hue colour or of an ink change its RGB colour little *)
From Coq Require Import ZArith Reals List.
From Flocq Require Import Core IEEE754.BinarySingleNaN.
From Verif Require Import Arith Outcome ColorModel SpaceModel Heap Converter F32 RArith Spec Spec32 Spec_Conv Spec_Round Spec_Error Spec_Formula Spec_Channels Spec_Near
  Core2_Proofs FormulaEx_Proofs Oneway2_Proofs Stable_Proofs.
Import ListNotations.
Local Open Scope R_scope.

(** C212 *)
Theorem C212_hsv : forall o (h h' : heap f32) p p' c c', at_addr h p c -> at_addr h' p' c' ->
  forall x s v x' s' v', comps c = [x; s; v] -> comps c' = [x'; s'; v'] -> @wf_color f32 (F32 o) HSV c -> @wf_color f32 (F32 o) HSV c' ->
  yields (@to_rgb_deep f32 (F32 o)) h p (fun d => yields (@to_rgb_deep f32 (F32 o)) h' p' (fun d' =>
    close32 (arc (B2R x) (B2R x') / 60 + Rabs (B2R s - B2R s') + Rabs (B2R v - B2R v') + / 65536) d d')).
Proof. exact stable_hsv. Qed.
Print Assumptions C212_hsv.
Theorem C212_hsl : forall o (h h' : heap f32) p p' c c', at_addr h p c -> at_addr h' p' c' ->
  forall x s l x' s' l', comps c = [x; s; l] -> comps c' = [x'; s'; l'] -> @wf_color f32 (F32 o) HSL c -> @wf_color f32 (F32 o) HSL c' ->
  yields (@to_rgb_deep f32 (F32 o)) h p (fun d => yields (@to_rgb_deep f32 (F32 o)) h' p' (fun d' =>
    close32 (arc (B2R x) (B2R x') / 60 + Rabs (B2R s - B2R s') / 2 + 2 * Rabs (B2R l - B2R l') + / 65536) d d')).
Proof. exact stable_hsl. Qed.
Print Assumptions C212_hsl.
Theorem C212_hcy : forall o (h h' : heap f32) p p' c c', at_addr h p c -> at_addr h' p' c' ->
  forall x s y x' s' y', comps c = [x; s; y] -> comps c' = [x'; s'; y'] -> @wf_color f32 (F32 o) HCY c -> @wf_color f32 (F32 o) HCY c' ->
  yields (@to_rgb_deep f32 (F32 o)) h p (fun d => yields (@to_rgb_deep f32 (F32 o)) h' p' (fun d' =>
    close32 (arc (B2R x) (B2R x') / 30 + Rabs (B2R s - B2R s') + Rabs (B2R y - B2R y') + / 65536) d d')).
Proof. exact stable_hcy. Qed.
Print Assumptions C212_hcy.
Theorem C212_cmyk : forall o (h h' : heap f32) p p' c c', at_addr h p c -> at_addr h' p' c' ->
  forall a m y k a' m' y' k' e, comps c = [a; m; y; k] -> comps c' = [a'; m'; y'; k'] -> @wf_color f32 (F32 o) CMYK c -> @wf_color f32 (F32 o) CMYK c' ->
  Rabs (B2R a - B2R a') <= e -> Rabs (B2R m - B2R m') <= e -> Rabs (B2R y - B2R y') <= e ->
  yields (@to_rgb_deep f32 (F32 o)) h p (fun d => yields (@to_rgb_deep f32 (F32 o)) h' p' (fun d' =>
    close32 (e + Rabs (B2R k - B2R k') + / 2097152) d d')).
Proof. exact stable_cmyk. Qed.
Print Assumptions C212_cmyk.
(** Without rounding there is no additive term. *)
Theorem C212_exact_hsv : forall (h h' : heap R) p p' c c', at_addr h p c -> at_addr h' p' c' ->
  forall x s v x' s' v', comps c = [x; s; v] -> comps c' = [x'; s'; v'] -> wf_color HSV c -> wf_color HSV c' ->
  yields to_rgb_deep h p (fun d => yields to_rgb_deep h' p' (fun d' => close_by (arc x x' / 60 + Rabs (s - s') + Rabs (v - v')) (comps d) (comps d'))).
Proof. exact exact_hsv. Qed.
Print Assumptions C212_exact_hsv.
Theorem C212_exact_hsl : forall (h h' : heap R) p p' c c', at_addr h p c -> at_addr h' p' c' ->
  forall x s l x' s' l', comps c = [x; s; l] -> comps c' = [x'; s'; l'] -> wf_color HSL c -> wf_color HSL c' ->
  yields to_rgb_deep h p (fun d => yields to_rgb_deep h' p' (fun d' => close_by (arc x x' / 60 + Rabs (s - s') / 2 + 2 * Rabs (l - l')) (comps d) (comps d'))).
Proof. exact exact_hsl. Qed.
Print Assumptions C212_exact_hsl.
Theorem C212_exact_hcy : forall (h h' : heap R) p p' c c', at_addr h p c -> at_addr h' p' c' ->
  forall x s y x' s' y', comps c = [x; s; y] -> comps c' = [x'; s'; y'] -> wf_color HCY c -> wf_color HCY c' ->
  yields to_rgb_deep h p (fun d => yields to_rgb_deep h' p' (fun d' => close_by (arc x x' / 30 + Rabs (s - s') + Rabs (y - y')) (comps d) (comps d'))).
Proof. exact exact_hcy. Qed.
Print Assumptions C212_exact_hcy.
Example C212_example : forall o k, (k = HSV \/ k = HSL \/ k = HCY) -> exists (h : heap f32) c x s v, at_addr h 0%nat c /\ @wf_color f32 (F32 o) k c /\
  comps c = [x; s; v] /\ B2R x = 200 /\ B2R s = 1 /\ B2R v = 1.
Proof. exact hue_exist. Qed.
Example C212_exact : forall X, has_hue X = true ->
  exists (h : heap R) c, at_addr h 0%nat c /\ wf_color X c /\ comps c = [200; 1 / 2; 3 / 4] /\ 0 <= m_alpha c <= 1.
Proof. exact hue_example. Qed.
Example C212_ink : forall o, exists (h : heap f32) c x y z k, at_addr h 0%nat c /\ @wf_color f32 (F32 o) CMYK c /\
  comps c = [x; y; z; k] /\ B2R x = 1 /\ B2R y = 0 /\ B2R z = 0 /\ B2R k = 0.
Proof. exact cmyk_exist. Qed.
(** Hues on both sides of red are near one another. *)
Example C212_arc : arc 1 359 = 2.
Proof. exact arc_red. Qed.
