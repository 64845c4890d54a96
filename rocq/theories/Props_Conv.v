(** * Properties of the converter: types, ranges, aliasing, alpha, RGB space (C08, C28 - C35)

    All statements are about binary32 and hold for every implementation of the
    transcendental functions ([oracle]).  Vocabulary: Spec.v, Spec32.v, Spec_Conv.v;
    [reachable] (History.v) are the objects client code can build. *)
From Coq Require Import ZArith QArith Reals Lra Lia List Bool.
From Flocq Require Import Core IEEE754.BinarySingleNaN.
From Verif Require Import Arith Outcome ColorModel GammaModel MatrixModel SpaceModel Heap Converter F32 F32Facts
  Spec Spec32 History Spec_Conv.
From Verif Require Import Laws Core4_Proofs Total_Proofs Convert_Proofs Run_Proofs.
Import ListNotations.
Local Open Scope Z_scope.

(** C08: [a + b] has dynamic class color_base, so the converter's static_cast of its
    address is undefined behaviour, for every target type. *)
Theorem C08_sum_usable_refuted : forall o, exists (h : heap f32) p (a b s : color f32),
  @reachable f32 (F32 o) a /\ @reachable f32 (F32 o) b /\
  has_space h a /\ @color_add f32 (F32 o) a b = Ok s /\ at_addr h p s /\ ty s = RGB_DEEP /\
  forall Y, In Y all_types -> fst (@to_type f32 (F32 o) Y (Some p) h) = Undef.
Proof. exact sum_unusable. Qed.
Print Assumptions C08_sum_usable_refuted.

(** C28.  [wf_color X c]: an object of class and type [X] with in-range components; every
    reachable object is one. *)
Theorem C28_reachable_wf : forall o c, @reachable f32 (F32 o) c -> @wf_color f32 (F32 o) (cls c) c.
Proof. exact reachable_wf. Qed.
Print Assumptions C28_reachable_wf.
Theorem C28_to_type : forall o (h : heap f32) p c X Y,
  at_addr h p c -> @wf_color f32 (F32 o) X c -> In Y all_types -> (needs_space X Y = true -> has_space h c) ->
  exists q r h', @to_type f32 (F32 o) Y (Some p) h = (Ok (Some q), h') /\ at_addr h' q r /\
    colour_of_type Y r /\ @wf_color f32 (F32 o) Y r.
Proof. exact conversion_total. Qed.
Print Assumptions C28_to_type.
Theorem C28_convertTo : forall o (h : heap f32) p c X Y,
  at_addr h p c -> @wf_color f32 (F32 o) X c -> In Y all_types -> Y <> LCH_AB -> Y <> LCH_UV ->
  (needs_space X Y = true -> has_space h c) ->
  exists q r h', @convertTo f32 (F32 o) (Some p) Y h = (Ok (Some q), h') /\ at_addr h' q r /\
    colour_of_type Y r /\ @wf_color f32 (F32 o) Y r.
Proof. exact convertTo_total. Qed.
Print Assumptions C28_convertTo.
(** The spaces the library offers are all usable. *)
Theorem C28_preset_spaces_usable : forall o addr (m : outcome (space_def f32)),
  In m (@space_presets f32 (F32 o) addr) -> exists s, m = Ok s /\ usable_space s.
Proof. exact presets_usable32. Qed.
Print Assumptions C28_preset_spaces_usable.
(** A colour of every type in a usable space exists. *)
Example C28_example : forall o k, In k all_types -> exists (h : heap f32) p c,
  at_addr h p c /\ @reachable f32 (F32 o) c /\ cls c = k /\ has_space h c /\ in_interval 0 1 (m_alpha c) /\ ~ @black_hsl f32 (F32 o) c.
Proof. exact alpha_example. Qed.

(** C29 *)
Theorem C29_convertTo_total_refuted : forall o, exists (h : heap f32) p c,
  at_addr h p c /\ @reachable f32 (F32 o) c /\ has_space h c /\
  @convertTo f32 (F32 o) (Some p) LCH_AB h = (Ok None, h) /\ @convertTo f32 (F32 o) (Some p) LCH_UV h = (Ok None, h).
Proof. exact convertTo_lch. Qed.
Print Assumptions C29_convertTo_total_refuted.

(** C30 *)
Theorem C30_aliasing : forall o (h : heap f32) p c X Y,
  at_addr h p c -> @wf_color f32 (F32 o) X c -> In Y all_types -> (needs_space X Y = true -> has_space h c) ->
  (X = Y -> @to_type f32 (F32 o) Y (Some p) h = (Ok (Some p), h)) /\
  (X <> Y -> exists q h', @to_type f32 (F32 o) Y (Some p) h = (Ok (Some q), h') /\ fresh h q).
Proof. exact conversion_aliasing. Qed.
Print Assumptions C30_aliasing.
Example C30_example : exists (h : heap f32) p c q, at_addr h p c /\ @reachable f32 (F32 nan_oracle) c /\
  fst (@to_type f32 (F32 nan_oracle) CMYK (Some p) h) = Ok (Some q) /\ q <> p.
Proof. exact alias_example. Qed.

(** C31 *)
Theorem C31_unchanged : forall o (h : heap f32) p c X Y,
  at_addr h p c -> @wf_color f32 (F32 o) X c -> In Y all_types -> (needs_space X Y = true -> has_space h c) ->
  X <> RGB_DEEP \/ cie Y = false ->
  unchanged h (snd (@to_type f32 (F32 o) Y (Some p) h)).
Proof. exact conversion_unchanged. Qed.
Print Assumptions C31_unchanged.
(** In the remaining case only the converted colour changes, and only its components. *)
Theorem C31_footprint : forall o (h : heap f32) p c X Y,
  at_addr h p c -> @wf_color f32 (F32 o) X c -> In Y all_types -> (needs_space X Y = true -> has_space h c) ->
  exists c', at_addr (snd (@to_type f32 (F32 o) Y (Some p) h)) p c' /\ colour_of_type X c' /\
    m_alpha c' = m_alpha c /\ rgb_space c' = rgb_space c /\
    others_unchanged h (snd (@to_type f32 (F32 o) Y (Some p) h)) p.
Proof. exact conversion_footprint. Qed.
Print Assumptions C31_footprint.

(** C32: converting a deep RGB colour (1/32, 1/32, 1/32) to XYZ overwrites its
    components (with values below 1/320). *)
Theorem C32_never_modifies_refuted : forall o, exists (h : heap f32) p c q h' c',
  at_addr h p c /\ @reachable f32 (F32 o) c /\ has_space h c /\
  @to_xyz f32 (F32 o) (Some p) h = (Ok (Some q), h') /\ at_addr h' p c' /\
  comp_sat c 0 (fun x => is_value x (1 / 32)) /\ comp_sat c' 0 (fun x => is_finite x = true /\ (B2R x < 1 / 320)%R).
Proof. exact convert_modifies. Qed.
Print Assumptions C32_never_modifies_refuted.

(** C33 *)
Theorem C33_alpha : forall o (h : heap f32) p c X Y,
  at_addr h p c -> @reachable f32 (F32 o) c -> cls c = X -> In Y all_types ->
  (needs_space X Y = true -> has_space h c) -> in_interval 0 1 (m_alpha c) -> ~ @black_hsl f32 (F32 o) c ->
  exists q r h', @to_type f32 (F32 o) Y (Some p) h = (Ok (Some q), h') /\ at_addr h' q r /\
    (eight_bit Y = false \/ eight_bit X = true -> m_alpha r = m_alpha c) /\
    (eight_bit Y = true -> eight_bit X = false ->
       exists n, 0 <= n <= 255 /\ is_value (@alpha f32 (F32 o) r) (IZR n) /\
         (Rabs (IZR n - rnd32 (255 * B2R (m_alpha c))) <= 1 / 2)%R).
Proof. exact conversion_alpha. Qed.
Print Assumptions C33_alpha.
(** The reported alpha is the stored one on the class's scale. *)
Theorem C33_reported : forall o (c : color f32),
  @alpha f32 (F32 o) c = if eight_bit (cls c) then fmul (Arith := F32 o) (m_alpha c) (fz (H := F32 o) 255) else m_alpha c.
Proof. exact reported_alpha. Qed.
Print Assumptions C33_reported.
(** Example: [C28_example]. *)

(** C34 *)
Theorem C34_black_hsl_refuted : forall o, exists (h : heap f32) p c q r h', at_addr h p c /\ @reachable f32 (F32 o) c /\
  @black_hsl f32 (F32 o) c /\ is_value (m_alpha c) 1 /\
  @to_rgb_deep f32 (F32 o) (Some p) h = (Ok (Some q), h') /\ at_addr h' q r /\ is_value (m_alpha r) 0.
Proof. exact black_hsl_alpha. Qed.
Print Assumptions C34_black_hsl_refuted.

(** C35 *)
Theorem C35_space : forall o (h : heap f32) p c X Y,
  at_addr h p c -> @wf_color f32 (F32 o) X c -> In Y all_types -> (needs_space X Y = true -> has_space h c) ->
  exists q r h', @to_type f32 (F32 o) Y (Some p) h = (Ok (Some q), h') /\ at_addr h' q r /\
    rgb_space r = rgb_space c /\ spaces h' = spaces h.
Proof. exact conversion_space. Qed.
Print Assumptions C35_space.
