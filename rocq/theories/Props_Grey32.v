(** * C196-C197: greys in binary32 *)
From Coq Require Import ZArith QArith Reals Lra Lia List Bool.
From Flocq Require Import Core IEEE754.BinarySingleNaN.
From Verif Require Import Arith Outcome ColorModel GammaModel MatrixModel SpaceModel Heap Converter F32 Spec Spec32 Spec_Conv Spec_Round Spec_Error Spec_Grey
  Grey32_Proofs Grey33_Proofs.
Import ListNotations.
Local Open Scope R_scope.

(** C196: three equal channels have hue 0 and saturation 0, and the third component is the channel *)
Theorem C196_hsv : forall o (h : heap f32) p (c : color f32) v, at_addr h p c -> @wf_color f32 (F32 o) RGB_DEEP c -> comps c = [v; v; v] ->
  yields (@to_hsv f32 (F32 o)) h p (neutral HSV c v).
Proof. exact grey_hsv. Qed.
Print Assumptions C196_hsv.
Theorem C196_hsl : forall o (h : heap f32) p (c : color f32) v, at_addr h p c -> @wf_color f32 (F32 o) RGB_DEEP c -> comps c = [v; v; v] ->
  yields (@to_hsl f32 (F32 o)) h p (neutral HSL c v).
Proof. exact grey_hsl. Qed.
Print Assumptions C196_hsl.
Theorem C196_hsi : forall o (h : heap f32) p (c : color f32) v, at_addr h p c -> @wf_color f32 (F32 o) RGB_DEEP c -> comps c = [v; v; v] ->
  yields (@to_hsi f32 (F32 o)) h p (neutral HSI c v).
Proof. exact grey_hsi. Qed.
Print Assumptions C196_hsi.
Theorem C196_hcy : forall o (h : heap f32) p (c : color f32) v, at_addr h p c -> @wf_color f32 (F32 o) RGB_DEEP c -> comps c = [v; v; v] ->
  yields (@to_hcy f32 (F32 o)) h p (neutral HCY c v).
Proof. exact grey_hcy. Qed.
Print Assumptions C196_hcy.
(** Saturation 0 is grey at every hue; a black HSL colour loses its alpha value (C34) *)
Theorem C196_hsv_back : forall o (h : heap f32) p (c : color f32) hue s v, at_addr h p c -> comps c = [hue; s; v] -> B2R s = 0 -> @wf_color f32 (F32 o) HSV c ->
  yields (@to_rgb_deep f32 (F32 o)) h p (grey_like c v True).
Proof. exact hsv_grey. Qed.
Print Assumptions C196_hsv_back.
Theorem C196_hsl_back : forall o (h : heap f32) p (c : color f32) hue s v, at_addr h p c -> comps c = [hue; s; v] -> B2R s = 0 -> @wf_color f32 (F32 o) HSL c ->
  yields (@to_rgb_deep f32 (F32 o)) h p (grey_like c v (B2R v <> 0)).
Proof. exact hsl_grey. Qed.
Print Assumptions C196_hsl_back.
Theorem C196_hsi_back : forall o (h : heap f32) p (c : color f32) hue s v, at_addr h p c -> comps c = [hue; s; v] -> B2R s = 0 -> @wf_color f32 (F32 o) HSI c ->
  yields (@to_rgb_deep f32 (F32 o)) h p (grey_like c v True).
Proof. exact hsi_grey. Qed.
Print Assumptions C196_hsi_back.
Theorem C196_hcy_back : forall o (h : heap f32) p (c : color f32) hue s v, at_addr h p c -> comps c = [hue; s; v] -> B2R s = 0 -> @wf_color f32 (F32 o) HCY c ->
  yields (@to_rgb_deep f32 (F32 o)) h p (grey_like c v True).
Proof. exact hcy_grey. Qed.
Print Assumptions C196_hcy_back.
(** Grey has three equal inks, of no ink at all unless it is nearly black, and comes back as a grey *)
Theorem C196_cmyk : forall o (h : heap f32) p (c : color f32) v, at_addr h p c -> @wf_color f32 (F32 o) RGB_DEEP c -> comps c = [v; v; v] ->
  via (@to_cmyk f32 (F32 o)) (@to_rgb_deep f32 (F32 o)) h p (fun m d => ty m = CMYK /\ ty d = RGB_DEEP /\
  (exists x k, comps m = [x; x; x; k] /\ (/ 16777216 <= B2R v -> is_value x 0)) /\
  (exists y, comps d = [y; y; y] /\ approx (B2R v) (/ 262144) y) /\ m_alpha d = m_alpha c /\ rgb_space d = rgb_space c).
Proof. exact grey_cmyk. Qed.
Print Assumptions C196_cmyk.
(** Grey bytes survive RGB, and RGB bytes that are grey survive grey *)
Theorem C196_bytes : forall o (h : heap f32) p (c : color f32) k, at_addr h p c -> @wf_color f32 (F32 o) GREY_TRUE c -> (0 <= k <= 255)%Z -> comp_sat c 0 (fun x => is_value x (IZR k)) ->
  via (@to_rgb_true f32 (F32 o)) (@to_grey_true f32 (F32 o)) h p (fun m d => ty m = RGB_TRUE /\ ty d = GREY_TRUE /\
    (forall i, (i < 3)%nat -> comp_sat m i (fun x => is_value x (IZR k))) /\ comp_sat d 0 (fun x => is_value x (IZR k)) /\ rgb_space d = rgb_space c).
Proof. exact grey_bytes. Qed.
Print Assumptions C196_bytes.
Theorem C196_bytes_back : forall o (h : heap f32) p (c : color f32) k, at_addr h p c -> @wf_color f32 (F32 o) RGB_TRUE c -> (0 <= k <= 255)%Z -> (forall i, (i < 3)%nat -> comp_sat c i (fun x => is_value x (IZR k))) ->
  via (@to_grey_true f32 (F32 o)) (@to_rgb_true f32 (F32 o)) h p (fun m d => ty m = GREY_TRUE /\ ty d = RGB_TRUE /\
    comp_sat m 0 (fun x => is_value x (IZR k)) /\ (forall i, (i < 3)%nat -> comp_sat d i (fun x => is_value x (IZR k))) /\ rgb_space d = rgb_space c).
Proof. exact bytes_grey. Qed.
Print Assumptions C196_bytes_back.
Example C196_example : forall o, exists (h : heap f32) (g s b : color f32) v hue z k,
  at_addr h 0%nat g /\ @wf_color f32 (F32 o) RGB_DEEP g /\ comps g = [v; v; v] /\ is_value v (1 / 2) /\
  at_addr h 1%nat s /\ @wf_color f32 (F32 o) HSV s /\ comps s = [hue; z; v] /\ is_value hue 200 /\ is_value z 0 /\
  at_addr h 2%nat b /\ @wf_color f32 (F32 o) GREY_TRUE b /\ comps b = [k] /\ is_value k (IZR 119).
Proof. exact grey_things. Qed.

(** C197: a deep grey need not come back from RGB *)
Theorem C197_refuted : forall o, exists (h : heap f32) c, at_addr h 0%nat c /\ @wf_color f32 (F32 o) GREY_DEEP c /\ comp_sat c 0 (fun x => is_value x (12582914 / 16777216)) /\
  via (@to_rgb_deep f32 (F32 o)) (@to_grey_deep f32 (F32 o)) h 0%nat (fun m d => comp_sat d 0 (fun x => is_value x (12582915 / 16777216))).
Proof. exact deep_grey_drifts. Qed.
Print Assumptions C197_refuted.
(** What holds instead: within 2^-22 *)
Theorem C197_close : forall o (h : heap f32) p (c : color f32) v, at_addr h p c -> @wf_color f32 (F32 o) GREY_DEEP c -> comps c = [v] ->
  via (@to_rgb_deep f32 (F32 o)) (@to_grey_deep f32 (F32 o)) h p (fun m d => grey_like c v True m /\ ty d = GREY_DEEP /\
    comp_sat d 0 (approx (B2R v) (/ 4194304)) /\ m_alpha d = m_alpha c /\ rgb_space d = rgb_space c).
Proof. exact deep_grey_close. Qed.
Print Assumptions C197_close.
