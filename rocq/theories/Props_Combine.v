(** * Properties C76-C79, C98-C100: color_combinations *)
From Coq Require Import ZArith QArith Reals List Bool.
From Flocq Require Import Core IEEE754.BinarySingleNaN.
From Verif Require Import Arith Outcome ColorModel Heap Converter Adjust Combine Spec F32 RArith Spec32 History Spec_Conv Spec_Calc Spec_Blend Spec_Adjust Spec_Combine
  BlendHcy_Proofs Adjust2_Proofs Combine_Proofs Combine2_Proofs.
Import ListNotations.
Local Open Scope R_scope.

(** C76 *)
Theorem C76_rejects : forall o n p (h : heap f32), (n = 0 \/ n = 1 \/ 360 < n)%Z ->
  @create_combination f32 (F32 o) p n h = (Throw (by_pointer invalid_argument), h).
Proof. exact combination_bad. Qed.
Print Assumptions C76_rejects.
Theorem C76_shape : forall o n (h : heap f32) X p c, (2 <= n <= 360)%Z -> at_addr h p c -> @wf_color f32 (F32 o) X c -> convertible X = true ->
  (cie X = true -> has_space h c) ->
  exists qs h', @create_combination f32 (F32 o) (Some p) n h = (Ok (Some p :: map Some qs), h') /\ length qs = Z.to_nat (n - 1) /\ new_colours X c h h' qs.
Proof. exact combination_shape. Qed.
Print Assumptions C76_shape.
(** The HSL form (x, y, z) of the colour is turned by a multiple of 360/n. *)
Theorem C76_hues : forall n (h : heap R) X p c, (2 <= n <= 360)%Z -> at_addr h p c -> wf_color X c -> convertible X = true -> (cie X = true -> has_space h c) ->
  exists a d h1 x y z qs h', convertTo (Some p) HSL h = (Ok (Some a), h1) /\ at_addr h1 a d /\ hsl_of d x y z /\ (X = HSL -> d = c) /\
    create_combination (Some p) n h = (Ok (Some p :: map Some qs), h') /\ length qs = Z.to_nat (n - 1) /\
    forall k q, nth_error qs k = Some q -> exists v w, converted_from X h h' q v /\ hsl_of v w y z /\
      normalised (x + INR (S k) * (360 / IZR n)) w /\ (X = HSL -> at_addr h' q v).
Proof. exact combination_hues. Qed.
Print Assumptions C76_hues.
(** Colours satisfying the hypotheses: [C81_example] (RGB and HSL, real numbers) and the
    CIEXYZ colour below. *)
Example C76_example : forall o, exists (h : heap f32) c1 c2, at_addr h 0%nat c1 /\ at_addr h 1%nat c2 /\
  @wf_color f32 (F32 o) LCH_AB c1 /\ @wf_color f32 (F32 o) XYZ c2 /\ rgb_space c1 = rgb_space c2 /\ has_space h c1 /\ convertible LCH_AB = false /\
  @reachable f32 (F32 o) c1 /\ @reachable f32 (F32 o) c2 /\ in_interval 0 1 (m_alpha c2) /\ ~ @black_hsl f32 (F32 o) c2.
Proof. exact lch_example. Qed.

(** C77: for every colour and every negative number *)
Theorem C77_negative_refuted : forall o n (h : heap f32) X p c, (n < 0)%Z -> at_addr h p c -> @wf_color f32 (F32 o) X c -> (cie X = true -> has_space h c) ->
  ((-2147483647 <= n)%Z -> exists h', @create_combination f32 (F32 o) (Some p) n h = (Ok [Some p], h')) /\
  (n = (-2147483648)%Z -> exists h', @create_combination f32 (F32 o) (Some p) n h = (Undef, h')).
Proof. exact negative_accepted. Qed.
Print Assumptions C77_negative_refuted.

(** C78: a colour with 8 bits per channel becomes opaque, a black one transparent *)
Theorem C78_alpha_refuted : forall o, exists c q r h', @reachable f32 (F32 o) c /\ cls c = RGB_TRUE /\
  @create_combination f32 (F32 o) (Some 0%nat) 2 (Heap [c] []) = (Ok [Some 0%nat; Some q], h') /\ at_addr h' q r /\
  is_value (@alpha f32 (F32 o) c) 51 /\ is_value (@alpha f32 (F32 o) r) 255.
Proof. exact eight_bit_opaque. Qed.
Print Assumptions C78_alpha_refuted.
Theorem C78_black_refuted : forall o, exists c q r h', @reachable f32 (F32 o) c /\ cls c = RGB_DEEP /\
  @create_combination f32 (F32 o) (Some 0%nat) 2 (Heap [c] []) = (Ok [Some 0%nat; Some q], h') /\ at_addr h' q r /\
  is_value (@alpha f32 (F32 o) c) 1 /\ is_value (@alpha f32 (F32 o) r) 0.
Proof. exact black_transparent. Qed.
Print Assumptions C78_black_refuted.
Theorem C78_alpha_partial : forall o n (h : heap f32) X p c, (2 <= n <= 360)%Z -> at_addr h p c -> @reachable f32 (F32 o) c -> cls c = X ->
  convertible X = true -> eight_bit X = false -> (cie X = true -> has_space h c) -> in_interval 0 1 (m_alpha c) ->
  (X <> HSL -> forall a d h1, @convertTo f32 (F32 o) (Some p) HSL h = (Ok (Some a), h1) -> at_addr h1 a d -> ~ @black_hsl f32 (F32 o) d) ->
  exists qs h', @create_combination f32 (F32 o) (Some p) n h = (Ok (Some p :: map Some qs), h') /\
    forall q, In q qs -> exists r, at_addr h' q r /\ m_alpha r = m_alpha c.
Proof. exact combination_alpha. Qed.
Print Assumptions C78_alpha_partial.
Example C78_example : forall o, exists c, @reachable f32 (F32 o) c /\ cls c = RGB_DEEP /\ in_interval 0 1 (m_alpha c) /\
  forall a d h1, @convertTo f32 (F32 o) (Some 0%nat) HSL (Heap [c] []) = (Ok (Some a), h1) -> at_addr h1 a d -> ~ @black_hsl f32 (F32 o) d.
Proof. exact alpha_example. Qed.

(** C79 *)
Theorem C79_analogous_rejects : forall o w p (h : heap f32), is_value w 0 \/ above 120 w ->
  @create_analogous f32 (F32 o) p w h = (Throw (by_pointer invalid_argument), h).
Proof. exact analogous_bad. Qed.
Print Assumptions C79_analogous_rejects.
Theorem C79_analogous : forall o w (h : heap f32) X p c, ~ is_value w 0 -> ~ above 120 w -> at_addr h p c -> @wf_color f32 (F32 o) X c ->
  convertible X = true -> (cie X = true -> has_space h c) ->
  exists q1 q2 h', @create_analogous f32 (F32 o) (Some p) w h = (Ok [Some q1; Some p; Some q2], h') /\ new_colours X c h h' [q1; q2].
Proof. exact analogous_shape. Qed.
Print Assumptions C79_analogous.
Theorem C79_analogous_hues : forall dist (h : heap R) X p c, dist <> 0 -> dist <= 120 -> at_addr h p c -> wf_color X c -> convertible X = true ->
  (cie X = true -> has_space h c) ->
  exists a d h1 x y z q1 q2 h', convertTo (Some p) HSL h = (Ok (Some a), h1) /\ at_addr h1 a d /\ hsl_of d x y z /\ (X = HSL -> d = c) /\
    create_analogous (Some p) dist h = (Ok [Some q1; Some p; Some q2], h') /\
    (exists v w, converted_from X h h' q1 v /\ hsl_of v w y z /\ normalised (x - dist) w /\ (X = HSL -> at_addr h' q1 v)) /\
    (exists v w, converted_from X h h' q2 v /\ hsl_of v w y z /\ normalised (x + dist) w /\ (X = HSL -> at_addr h' q2 v)).
Proof. exact analogous_hues. Qed.
Print Assumptions C79_analogous_hues.
Theorem C79_monochromatic_rejects : forall o mode amount n p (h : heap f32), outside_unit amount \/ (n <= 0)%Z ->
  @create_monochromatic f32 (F32 o) p mode amount n h = (Throw (by_pointer invalid_argument), h).
Proof. exact mono_bad. Qed.
Print Assumptions C79_monochromatic_rejects.
Theorem C79_monochromatic_mode : forall o mode amount n (h : heap f32) X p c, ~ outside_unit amount -> (2 <= n)%Z -> (mode < 0 \/ 2 < mode)%Z ->
  at_addr h p c -> @wf_color f32 (F32 o) X c -> (cie X = true -> has_space h c) -> throws_invalid (@create_monochromatic f32 (F32 o) (Some p) mode amount n) h.
Proof. exact mono_mode. Qed.
Print Assumptions C79_monochromatic_mode.
Theorem C79_monochromatic : forall o mode amount n (h : heap f32) X p c, ~ outside_unit amount -> (1 <= n)%Z -> (n = 1 \/ 0 <= mode <= 2)%Z ->
  at_addr h p c -> @wf_color f32 (F32 o) X c -> convertible X = true -> (cie X = true -> has_space h c) ->
  exists qs h', @create_monochromatic f32 (F32 o) (Some p) mode amount n h = (Ok (Some p :: map Some qs), h') /\ length qs = Z.to_nat (n - 1) /\ new_colours X c h h' qs.
Proof. exact mono_shape. Qed.
Print Assumptions C79_monochromatic.
Example C79_example : ~ is_value (lit32 (1 # 2)) 0 /\ ~ above 120 (lit32 (1 # 2)) /\ ~ outside_unit (lit32 (1 # 2)) /\ above 120 (lit32 (200 # 1)).
Proof. exact distance_example. Qed.

(** C98 *)
Theorem C98_geometric : forall mode amount n (h : heap R) p c x y z, (0 <= mode <= 2)%Z -> 0 <= amount <= 1 -> (1 <= n)%Z ->
  at_addr h p c -> wf_color HSL c -> comps c = [x; y; z] ->
  exists qs h', create_monochromatic (Some p) mode amount n h = (Ok (Some p :: map Some qs), h') /\ length qs = Z.to_nat (n - 1) /\
    forall k q, nth_error qs k = Some q -> exists r, at_addr h' q r /\ m_alpha r = m_alpha c /\
      hsl_of r x (fst (mono_values mode (1 - amount) y z (S k))) (snd (mono_values mode (1 - amount) y z (S k))).
Proof. exact mono_geometric. Qed.
Print Assumptions C98_geometric.
(** Example: the HSL colour (120, 1/2, 1/2) of [C81_example]. *)
Example C98_example : exists (h : heap R) c, at_addr h 0%nat c /\ wf_color RGB_DEEP c /\ comps c = [1 / 2; 0; 1] /\ m_alpha c = 1 /\
  adjusted LuminateRGB (1 / 2) (1 / 2) 0 1 = [3 / 4; 0; 1] /\
  exists d, at_addr h 1%nat d /\ wf_color HSL d /\ comps d = [120; 1 / 2; 1 / 2].
Proof. exact adjust_exampleR. Qed.

(** C99: all LCh colours *)
Theorem C99_lch_refuted : forall o (h : heap f32) X p c, (X = LCH_AB \/ X = LCH_UV) -> at_addr h p c -> @wf_color f32 (F32 o) X c -> has_space h c ->
  (forall n, (2 <= n <= 360)%Z -> exists h', @create_combination f32 (F32 o) (Some p) n h = (Ok (Some p :: repeat None (Z.to_nat (n - 1))), h')) /\
  (forall mode amount n, (0 <= mode <= 2)%Z -> ~ outside_unit amount -> (3 <= n)%Z -> exists h', @create_monochromatic f32 (F32 o) (Some p) mode amount n h = (Undef, h')) /\
  (forall w, ~ is_value w 0 -> ~ above 120 w -> exists h', @create_complimentary_split f32 (F32 o) (Some p) w h = (Undef, h')).
Proof. exact lch_schemes. Qed.
Print Assumptions C99_lch_refuted.
(** Example: the LCh colour of [C76_example]. *)

(** C100 *)
Theorem C100_split : forall o w (h : heap f32) X p c, ~ is_value w 0 -> ~ above 120 w -> at_addr h p c -> @wf_color f32 (F32 o) X c ->
  convertible X = true -> (cie X = true -> has_space h c) ->
  exists q1 q2 h', @create_complimentary_split f32 (F32 o) (Some p) w h = (Ok [Some q1; Some p; Some q2], h') /\ new_colours X c h h' [q1; q2].
Proof. exact split_shape. Qed.
Print Assumptions C100_split.
Theorem C100_split_rejects : forall o w (h : heap f32) X p c, is_value w 0 \/ above 120 w -> at_addr h p c -> @wf_color f32 (F32 o) X c ->
  (cie X = true -> has_space h c) -> throws_invalid (@create_complimentary_split f32 (F32 o) (Some p) w) h.
Proof. exact split_bad. Qed.
Print Assumptions C100_split_rejects.
