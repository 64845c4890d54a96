(** * Properties of colour objects (C01 - C07, C09 - C16, C84, C85)

    [o : oracle] ranges over all implementations of powf, cosf, sinf, atan2f, expf,
    log10f.  [@reachable f32 (F32 o) c] (History.v) says that a client can obtain the
    object [c] with any history of constructors, copies, setters, assignments and
    gamma corrections, in binary32 arithmetic.  The vocabulary is in Spec.v/Spec32.v. *)
From Coq Require Import ZArith QArith Reals List Bool Ascii String.
From Flocq Require Import Core IEEE754.BinarySingleNaN.
From Verif Require Import Arith Outcome ColorModel HexModel Heap Spec Spec32 History F32 F32Facts RArith Laws.
From Verif Require Import Core2_Proofs Hex_Proofs Core3_Proofs Core4_Proofs.
Import ListNotations.
Local Open Scope Z_scope.

(** Every type has reachable colours with non-trivial contents: the hypothesis
    [reachable] below is satisfiable for all fifteen classes. *)
Example reachable_nonempty : forall o k, In k all_types ->
  exists c, @reachable f32 (F32 o) c /\ cls c = k /\ ty c = k /\ in_interval 0 1 (m_alpha c) /\
    rgb_space c = Some 3%nat /\ comp_sat c 0 (fun x => is_value x (1 / 2)).
Proof. exact example_color. Qed.

(** C01 *)
Theorem C01_components_in_range : forall o (c : color f32), @reachable f32 (F32 o) c ->
  In (cls c) all_types /\ ty c = cls c /\ List.length (comps c) = arity (cls c) /\
  forall i x, nth_error (comps c) i = Some x ->
    in_interval (fst (comp_range (cls c) i)) (snd (comp_range (cls c) i)) x.
Proof. exact components_in_range. Qed.
Print Assumptions C01_components_in_range.

(** C02 *)
Theorem C02_hue_setter_total : forall o (c : color f32) v, @reachable f32 (F32 o) c -> has_hue (cls c) = true ->
  exists c', @named_set f32 (F32 o) (cls c) c v 0 = Ok c' /\ comp_sat c' 0 (in_interval 0 359).
Proof. exact hue_total_in_range. Qed.
Print Assumptions C02_hue_setter_total.

Theorem C02_hue_setter_exact : forall (c : color R) v, wf_color (cls c) c -> has_hue (cls c) = true ->
  exists c' (k : Z) m, named_set (cls c) c v 0 = Ok c' /\
    v = (360 * IZR k + m)%R /\ (0 <= m < 360)%R /\ nth_error (comps c') 0 = Some (Rmin m 359).
Proof. exact hue_exact. Qed.
Print Assumptions C02_hue_setter_exact.

(** C03 *)
Theorem C03_get_component : forall F (AF : Arith F) (c : color F) i,
  (get_component c i = Throw (by_pointer out_of_range) <-> (i < 0 \/ Z.of_nat (List.length (comps c)) <= i)) /\
  (forall x, get_component c i = Ok x <-> 0 <= i /\ nth_error (comps c) (Z.to_nat i) = Some x).
Proof. intros F AF. exact get_component_spec. Qed.
Print Assumptions C03_get_component.

Theorem C03_set_component : forall F (AF : Arith F) (c : color F) v i,
  (set_component c v i = Throw (by_pointer out_of_range) <-> (i < 0 \/ Z.of_nat (List.length (comps c)) <= i)) /\
  (forall c', set_component c v i = Ok c' ->
     cls c' = cls c /\ ty c' = ty c /\ m_alpha c' = m_alpha c /\ m_max c' = m_max c /\ m_min c' = m_min c /\
     rgb_space c' = rgb_space c /\ List.length (comps c') = List.length (comps c) /\
     get_component c' i = Ok (fmax (fmin v (m_max c)) (m_min c)) /\
     forall j, j <> i -> get_component c' j = get_component c j) /\
  (0 <= i < Z.of_nat (List.length (comps c)) -> exists c', set_component c v i = Ok c').
Proof. intros F AF. exact set_component_spec. Qed.
Print Assumptions C03_set_component.

(** C04 *)
Theorem C04_eight_bit_alpha_in_range : forall o (c : color f32), @reachable f32 (F32 o) c -> eight_bit (cls c) = true ->
  in_interval 0 255 (@alpha f32 (F32 o) c).
Proof. exact eight_bit_alpha. Qed.
Print Assumptions C04_eight_bit_alpha_in_range.

Theorem C04_alpha_setter_clamps : forall o (c : color f32) a,
  in_interval 0 (alpha_max (cls c)) (@alpha f32 (F32 o) (@alpha_set f32 (F32 o) c a)).
Proof. exact alpha_setter_clamps. Qed.
Print Assumptions C04_alpha_setter_clamps.

Theorem C04_alpha_setter_value : forall o (c : color f32) a,
  (eight_bit (cls c) = false -> is_finite a = true ->
     is_value (@alpha f32 (F32 o) (@alpha_set f32 (F32 o) c a)) (Rmax (Rmin (B2R a) 1) 0)) /\
  (eight_bit (cls c) = false -> in_interval 0 1 a -> @alpha f32 (F32 o) (@alpha_set f32 (F32 o) c a) = a).
Proof. exact alpha_setter_stores. Qed.
Print Assumptions C04_alpha_setter_value.

Theorem C04_alpha_setter_bytes : forall o (c : color f32) (a : f32) n,
  eight_bit (cls c) = true -> 0 <= n <= 255 -> is_value a (IZR n) ->
  is_value (@alpha f32 (F32 o) (@alpha_set f32 (F32 o) c a)) (IZR n).
Proof. exact alpha_setter_bytes. Qed.
Print Assumptions C04_alpha_setter_bytes.

(** C05: false.  hsv(0, 0, 0, 7) has alpha 7. *)
Theorem C05_fresh_alpha_refuted : forall o, exists c,
  @constructed f32 (F32 o) c /\ cls c = HSV /\ is_value (@alpha f32 (F32 o) c) 7.
Proof. exact fresh_alpha_refuted. Qed.
Print Assumptions C05_fresh_alpha_refuted.

Theorem C05_fresh_alpha_partial : forall o (c : color f32), @constructed f32 (F32 o) c -> eight_bit (cls c) = true ->
  in_interval 0 255 (@alpha f32 (F32 o) c).
Proof. exact fresh_alpha8. Qed.
Print Assumptions C05_fresh_alpha_partial.

(** C06 *)
Theorem C06_equality : forall o (a b c : color f32),
  @reachable f32 (F32 o) a -> @reachable f32 (F32 o) b -> @reachable f32 (F32 o) c ->
  @color_eq f32 (F32 o) a a = true /\
  (@color_eq f32 (F32 o) a b = @color_eq f32 (F32 o) b a) /\
  (@color_eq f32 (F32 o) a b = true -> @color_eq f32 (F32 o) b c = true -> @color_eq f32 (F32 o) a c = true) /\
  (@color_neq f32 (F32 o) a b = negb (@color_eq f32 (F32 o) a b)) /\
  (@color_eq f32 (F32 o) a b = true <-> ty a = ty b /\ map (@B2R 24 128) (comps a) = map (@B2R 24 128) (comps b)).
Proof. exact eq_equivalence. Qed.
Print Assumptions C06_equality.

(** C07: saturation to the limits a reports *)
Theorem C07_add_throws : forall o (a b : color f32), @color_add f32 (F32 o) a b = Throw (by_pointer invalid_argument) <->
  (ty a <> ty b \/ List.length (comps a) <> List.length (comps b)).
Proof. exact add_throws. Qed.
Print Assumptions C07_add_throws.

Theorem C07_add_result : forall o (a b : color f32), @reachable f32 (F32 o) a -> @reachable f32 (F32 o) b -> ty a = ty b ->
  exists s, @color_add f32 (F32 o) a b = Ok s /\ ty s = ty a /\ rgb_space s = rgb_space a /\
    @alpha f32 (F32 o) s = @alpha f32 (F32 o) a /\
    List.length (comps s) = List.length (comps a) /\
    forall i x y, nth_error (comps a) i = Some x -> nth_error (comps b) i = Some y ->
      comp_sat s i (fun z => is_value z
        (Rmax (Rmin (rnd32 (B2R x + B2R y)) (IZR (snd (limits (cls a))))) (IZR (fst (limits (cls a)))))).
Proof. exact add_result. Qed.
Print Assumptions C07_add_result.

Theorem C07_add_commutes : forall o (a b : color f32), @reachable f32 (F32 o) a -> @reachable f32 (F32 o) b -> ty a = ty b ->
  exists s t, @color_add f32 (F32 o) a b = Ok s /\ @color_add f32 (F32 o) b a = Ok t /\
    map (@B2R 24 128) (comps s) = map (@B2R 24 128) (comps t).
Proof. exact add_comm. Qed.
Print Assumptions C07_add_commutes.

(** C09 *)
Theorem C09_copy_preserves : forall F (AF : Arith F) (c : color F),
  cls (copy_ctor (cls c) c) = cls c /\ ty (copy_ctor (cls c) c) = ty c /\
  comps (copy_ctor (cls c) c) = comps c /\ m_max (copy_ctor (cls c) c) = m_max c /\
  m_min (copy_ctor (cls c) c) = m_min c /\ rgb_space (copy_ctor (cls c) c) = rgb_space c.
Proof. exact @copy_preserves. Qed.
Print Assumptions C09_copy_preserves.

Theorem C09_copy_alpha : forall o (c : color f32), @reachable f32 (F32 o) c -> in_interval 0 1 (m_alpha c) ->
  is_value (m_alpha (@copy_ctor f32 (F32 o) (cls c) c)) (B2R (m_alpha c)).
Proof. exact copy_alpha_preserved. Qed.
Print Assumptions C09_copy_alpha.

(** C10: false.  Alpha and RGB space of the target stay. *)
Theorem C10_assignment_refuted : forall o, exists x y,
  @reachable f32 (F32 o) x /\ @reachable f32 (F32 o) y /\ cls x = cls y /\
  is_value (@alpha f32 (F32 o) y) 0 /\ is_value (@alpha f32 (F32 o) (assign x y)) 1 /\
  rgb_space y = Some 0%nat /\ rgb_space (assign x y) = None.
Proof. exact assign_refuted. Qed.
Print Assumptions C10_assignment_refuted.

Theorem C10_assignment_partial : forall F (x y : color F),
  ty (assign x y) = ty y /\ comps (assign x y) = comps y /\ m_max (assign x y) = m_max y /\
  m_min (assign x y) = m_min y /\ cls (assign x y) = cls x.
Proof. exact @assign_copies. Qed.
Print Assumptions C10_assignment_partial.

(** C11: false for four classes, true for the other eleven. *)
Theorem C11_from_base_refuted : forall o (c : color f32), @reachable f32 (F32 o) c ->
  In (cls c) [RGB_TRUE; RGB_DEEP; GREY_TRUE; CIELUV] ->
  @from_base_ctor f32 (F32 o) (cls c) c = Throw (by_pointer invalid_argument).
Proof. exact from_base_fails. Qed.
Print Assumptions C11_from_base_refuted.

Theorem C11_from_base_partial : forall o k (c : color f32), @reachable f32 (F32 o) c -> In k all_types ->
  ~ In k [RGB_TRUE; RGB_DEEP; GREY_TRUE; CIELUV] ->
  (ty c = k -> exists c', @from_base_ctor f32 (F32 o) k c = Ok c' /\ cls c' = k /\ ty c' = k /\
     comps c' = comps c /\ @alpha f32 (F32 o) c' = @alpha f32 (F32 o) c /\ rgb_space c' = rgb_space c) /\
  (ty c <> k -> @from_base_ctor f32 (F32 o) k c = Throw (by_pointer invalid_argument)).
Proof. exact from_base_ok. Qed.
Print Assumptions C11_from_base_partial.

(** C12.  [byte v1 v2] is 16 * v1 + v2. *)
Theorem C12_hex6 : forall o pre c1 c2 c3 c4 c5 c6 v1 v2 v3 v4 v5 v6 sp, hash_prefix pre ->
  digit_value c1 v1 -> digit_value c2 v2 -> digit_value c3 v3 ->
  digit_value c4 v4 -> digit_value c5 v5 -> digit_value c6 v6 ->
  exists c, @rgb_truecolor_hex f32 (F32 o) (pre ++ [c1; c2; c3; c4; c5; c6]) sp = Ok c /\
    has_channels c o 255 (byte v1 v2) (byte v3 v4) (byte v5 v6) sp.
Proof. exact hex6_channels. Qed.
Print Assumptions C12_hex6.

Theorem C12_hex8 : forall o pre c1 c2 c3 c4 c5 c6 c7 c8 v1 v2 v3 v4 v5 v6 v7 v8 sp, hash_prefix pre ->
  digit_value c1 v1 -> digit_value c2 v2 -> digit_value c3 v3 -> digit_value c4 v4 ->
  digit_value c5 v5 -> digit_value c6 v6 -> digit_value c7 v7 -> digit_value c8 v8 ->
  exists c, @rgb_truecolor_hex f32 (F32 o) (pre ++ [c1; c2; c3; c4; c5; c6; c7; c8]) sp = Ok c /\
    has_channels c o (byte v1 v2) (byte v3 v4) (byte v5 v6) (byte v7 v8) sp.
Proof. exact hex8_channels. Qed.
Print Assumptions C12_hex8.

Theorem C12_bad_character : forall F (AF : Arith F) s sp c, In c s -> c <> "#"%char -> (forall v, ~ digit_value c v) ->
  rgb_truecolor_hex (F := F) s sp = Throw (by_value invalid_argument).
Proof. intros F AF. exact hex_bad_char. Qed.
Print Assumptions C12_bad_character.

Theorem C12_bad_length : forall F (AF : Arith F) pre s sp, hash_prefix pre ->
  (pre = [] -> match s with c :: _ => c <> "#"%char | [] => True end) ->
  List.length s <> 6%nat -> List.length s <> 8%nat ->
  rgb_truecolor_hex (F := F) (pre ++ s) sp = Throw (by_value invalid_argument).
Proof. intros F AF. exact hex_bad_length. Qed.
Print Assumptions C12_bad_length.

Example C12_digits : digit_value "a"%char 10 /\ digit_value "A"%char 10 /\ digit_value "7"%char 7 /\
  (forall v, ~ digit_value "g"%char v) /\ hash_prefix ["#"%char].
Proof.
  unfold digit_value, hash_prefix. do 3 (split; [split; [repeat constructor|auto]|]). split; [|auto].
  intros v [L [H|H]]; do 16 (destruct v as [|v]; [discriminate H|]); do 16 apply Nat.succ_lt_mono in L; inversion L.
Qed.

(** C13: false.  "12#456" passes the check and leaves a variable uninitialised. *)
Theorem C13_malformed_refuted : forall o sp,
  @rgb_truecolor_hex f32 (F32 o) (list_ascii_of_string "12#456") sp = Undef.
Proof. exact malformed_undefined. Qed.
Print Assumptions C13_malformed_refuted.

(** Without '#' behind the first position every string is decoded or rejected. *)
Theorem C13_malformed_partial : forall o pre s sp, hash_prefix pre -> ~ In "#"%char s ->
  (exists c, @rgb_truecolor_hex f32 (F32 o) (pre ++ s) sp = Ok c) \/
  @rgb_truecolor_hex f32 (F32 o) (pre ++ s) sp = Throw (by_value invalid_argument).
Proof. intros o. exact hex_defined. Qed.
Print Assumptions C13_malformed_partial.

(** C14.  [argb a r g b] is a * 2^24 + r * 2^16 + g * 2^8 + b. *)
Theorem C14_int_decodes : forall o h sp, exists a r g b c,
  0 <= a <= 255 /\ 0 <= r <= 255 /\ 0 <= g <= 255 /\ 0 <= b <= 255 /\
  h mod 4294967296 = argb a r g b /\
  @rgb_truecolor_int f32 (F32 o) h sp = Ok c /\ has_channels c o a r g b sp.
Proof. exact int_channels. Qed.
Print Assumptions C14_int_decodes.

Theorem C14_int_agrees_with_string : forall o pre c1 c2 c3 c4 c5 c6 c7 c8 v1 v2 v3 v4 v5 v6 v7 v8 h sp, hash_prefix pre ->
  digit_value c1 v1 -> digit_value c2 v2 -> digit_value c3 v3 -> digit_value c4 v4 ->
  digit_value c5 v5 -> digit_value c6 v6 -> digit_value c7 v7 -> digit_value c8 v8 ->
  h mod 4294967296 = argb (byte v1 v2) (byte v3 v4) (byte v5 v6) (byte v7 v8) ->
  @rgb_truecolor_int f32 (F32 o) h sp = @rgb_truecolor_hex f32 (F32 o) (pre ++ [c1; c2; c3; c4; c5; c6; c7; c8]) sp.
Proof. exact int_string_agree. Qed.
Print Assumptions C14_int_agrees_with_string.

Theorem C14_predefined : forall o n v sp, In (n, v) hexcode_colors ->
  exists a r g b c, 0 <= r <= 255 /\ 0 <= g <= 255 /\ 0 <= b <= 255 /\ v = argb a r g b /\
    a = (if string_dec n "Transparent" then 0 else 255) /\
    @predefined_color f32 (F32 o) v sp = Ok c /\ has_channels c o a r g b sp.
Proof. exact predefined_channels. Qed.
Print Assumptions C14_predefined.

(** C15 *)
Theorem C15_multiply_divide : forall c : color R, m_alpha c <> 0%R -> alpha_divide (alpha_multiply c) = c.
Proof. exact alpha_mul_div. Qed.
Print Assumptions C15_multiply_divide.

Theorem C15_alpha_zero : forall F (AF : Arith F) (c : color F), feq (m_alpha c) (fz 0) = true -> alpha_divide c = c.
Proof. exact @alpha_div_zero. Qed.
Print Assumptions C15_alpha_zero.

Theorem C15_frame : forall F (AF : Arith F) (c : color F),
  (forall c', c' = alpha_multiply c \/ c' = alpha_divide c ->
    cls c' = cls c /\ ty c' = ty c /\ m_alpha c' = m_alpha c /\ m_max c' = m_max c /\ m_min c' = m_min c /\
    rgb_space c' = rgb_space c /\ List.length (comps c') = List.length (comps c)).
Proof. exact @alpha_ops_frame. Qed.
Print Assumptions C15_frame.

Theorem C15_multiply_in_range : forall o (c : color f32),
  @reachable f32 (F32 o) c -> in_interval 0 1 (m_alpha c) -> ~ In (cls c) [LAB; CIELUV] ->
  forall i x, nth_error (comps (@alpha_multiply f32 (F32 o) c)) i = Some x ->
    in_interval (fst (comp_range (cls c) i)) (snd (comp_range (cls c) i)) x.
Proof. exact alpha_multiply_range. Qed.
Print Assumptions C15_multiply_in_range.

(** C16: false.  White with alpha 1/2 gets components 2. *)
Theorem C16_alpha_divide_refuted : forall o, exists c, @reachable f32 (F32 o) c /\ cls c = RGB_DEEP /\
  in_interval 0 1 (m_alpha c) /\ comp_sat (@alpha_divide f32 (F32 o) c) 0 (fun x => is_value x 2).
Proof. exact alpha_divide_refuted. Qed.
Print Assumptions C16_alpha_divide_refuted.

(** C84: false.  set_component(-128, 0) is accepted by a Lab colour. *)
Theorem C84_index_setter_refuted : forall o, exists c c', @reachable f32 (F32 o) c /\ cls c = LAB /\
  @set_component f32 (F32 o) c (@fz f32 (F32 o) (-128)) 0 = Ok c' /\
  comp_sat c' 0 (fun x => is_value x (-128)).
Proof. exact index_set_refuted. Qed.
Print Assumptions C84_index_setter_refuted.

(** C85.  [stored k i x y] (Core4_Proofs.v): [y] is [x] when [x] is in the documented
    range, [x] saturated to the range otherwise, the angle modulo 360 for wrapped
    hues, the upper bound for NaN. *)
Theorem C85_constructors_store : forall o k (l : list f32) a sp, In k all_types -> List.length l = arity k ->
  exists c, @ctor_of f32 (F32 o) k l a sp = Ok c /\ cls c = k /\ ty c = k /\ rgb_space c = sp /\
    List.length (comps c) = arity k /\
    (forall i x, nth_error l i = Some x -> comp_sat c i (stored k i x)) /\
    (eight_bit k = false -> @alpha f32 (F32 o) c = a) /\
    (eight_bit k = true -> forall n, 0 <= n <= 255 -> is_value a (IZR n) -> is_value (@alpha f32 (F32 o) c) (IZR n)).
Proof. exact ctor_stores. Qed.
Print Assumptions C85_constructors_store.

Theorem C85_setters_store : forall o (c : color f32) v i, @reachable f32 (F32 o) c -> (i < arity (cls c))%nat ->
  exists c', @named_set f32 (F32 o) (cls c) c v i = Ok c' /\ cls c' = cls c /\ ty c' = ty c /\
    m_alpha c' = m_alpha c /\ rgb_space c' = rgb_space c /\ List.length (comps c') = List.length (comps c) /\
    comp_sat c' i (stored (cls c) i v) /\
    forall j, j <> i -> nth_error (comps c') j = nth_error (comps c) j.
Proof. exact reachable_set_stores. Qed.
Print Assumptions C85_setters_store.
