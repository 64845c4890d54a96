(** * Properties: named combinations and the remaining operations on gamma curves *)
From Coq Require Import ZArith Reals List.
From Flocq Require Import Core IEEE754.BinarySingleNaN.
From Verif Require Import Arith Outcome ColorModel GammaModel GammaPtr Heap Converter Combine Spec F32 RArith Spec32 History Spec_Conv Spec_Matrix Spec_Space Spec_Calc Spec_Blend Spec_Adjust Spec_Combine Unused_Proofs.
Import ListNotations.
Local Open Scope R_scope.

(** C76: the named combinations *)
Theorem C76_named : forall f n (h : heap R) X p c, In (f, n) [(create_triplet (AF := RArith), 3%Z); (create_quartet (AF := RArith), 4%Z); (create_quintet (AF := RArith), 5%Z)] ->
  at_addr h p c -> wf_color X c -> convertible X = true -> (cie X = true -> has_space h c) ->
  exists a d h1 x y z qs h', convertTo (Some p) HSL h = (Ok (Some a), h1) /\ at_addr h1 a d /\ hsl_of d x y z /\ (X = HSL -> d = c) /\
    f (Some p) h = (Ok (Some p :: map Some qs), h') /\ length qs = Z.to_nat (n - 1) /\
    forall k q, nth_error qs k = Some q -> exists v w, converted_from X h h' q v /\ hsl_of v w y z /\
      normalised (x + INR (S k) * (360 / IZR n)) w /\ (X = HSL -> at_addr h' q v).
Proof. exact named_hues. Qed.
Print Assumptions C76_named.

(** C17: replacing the pieces of one of the two curves, and copies *)
Theorem C17_set_parts : forall o (g : gamma f32) (l : list (gamma_part f32)), Forall (fun q => is_nan (g_border q) = false) l -> forall x,
  (forall p f, covers (AF := F32 o) l p f x -> @gamma_correction f32 (F32 o) (@set_gamma_curve_parts f32 (F32 o) g l) x = f x) /\
  (uncovered (AF := F32 o) l x -> @gamma_correction f32 (F32 o) (@set_gamma_curve_parts f32 (F32 o) g l) x = x) /\
  @inverse_gamma_correction f32 (F32 o) (@set_gamma_curve_parts f32 (F32 o) g l) x = @inverse_gamma_correction f32 (F32 o) g x.
Proof. exact set_parts32. Qed.
Print Assumptions C17_set_parts.

Theorem C17_set_inverse_parts : forall o (g : gamma f32) (l : list (gamma_part f32)), Forall (fun q => is_nan (g_border q) = false) l -> forall x,
  (forall p f, covers (AF := F32 o) l p f x -> @inverse_gamma_correction f32 (F32 o) (@set_inverse_gamma_curve_parts f32 (F32 o) g l) x = f x) /\
  (uncovered (AF := F32 o) l x -> @inverse_gamma_correction f32 (F32 o) (@set_inverse_gamma_curve_parts f32 (F32 o) g l) x = x) /\
  @gamma_correction f32 (F32 o) (@set_inverse_gamma_curve_parts f32 (F32 o) g l) x = @gamma_correction f32 (F32 o) g x.
Proof. exact set_inverse_parts32. Qed.
Print Assumptions C17_set_inverse_parts.

Theorem C17_copy : forall o (l ig : list (gamma_part f32)), Forall (fun q => is_nan (g_border q) = false) l -> Forall (fun q => is_nan (g_border q) = false) ig ->
  distinct_borders (AF := F32 o) l -> distinct_borders (AF := F32 o) ig ->
  @gamma_copy f32 (F32 o) (@gamma_ctor f32 (F32 o) l ig) = @gamma_ctor f32 (F32 o) l ig.
Proof. exact copy32. Qed.
Print Assumptions C17_copy.

(** C129: a null piece added to a curve that is not empty *)
Theorem C129_add_null_refuted : forall F (AF : Arith F) (st : piece_store F) g, (pg_parts g <> [] -> padd_part st g None = Undef) /\ (pig_parts g <> [] -> padd_inverse_part st g None = Undef).
Proof. exact (fun F AF => @add_null F AF). Qed.
Print Assumptions C129_add_null_refuted.

(** C128: otherwise adding a piece through a pointer is adding it by value *)
Theorem C128_add_partial : forall F (AF : Arith F) (st : piece_store F) g p q xs ys, Forall2 (fun p x => piece_at st p = Ok x) (pg_parts g) xs -> Forall2 (fun p x => piece_at st p = Ok x) (pig_parts g) ys ->
  piece_at st p = Ok q -> exists g1 g2, padd_part st g p = Ok g1 /\ padd_inverse_part st g p = Ok g2 /\ forall x,
    pgamma_correction st g1 x = Ok (gamma_correction (add_gamma_curve_part (Gamma xs ys) q) x) /\
    pinverse_gamma_correction st g1 x = pinverse_gamma_correction st g x /\
    pinverse_gamma_correction st g2 x = Ok (inverse_gamma_correction (add_inverse_gamma_curve_part (Gamma xs ys) q) x) /\
    pgamma_correction st g2 x = pgamma_correction st g x.
Proof. exact (fun F AF => @add_refers F AF). Qed.
Print Assumptions C128_add_partial.

(** Hypotheses: C76_example, C17_example; a curve with one piece, to which a null piece is added *)
Example C129_add_example : forall f : R -> R, let st := [GammaPart (Some f) 1] in
  piece_at st (Some 0%nat) = Ok (GammaPart (Some f) 1) /\ pgamma_ctor st [Some 0%nat] [Some 0%nat] = Ok (PGamma [Some 0%nat] [Some 0%nat]) /\
  padd_part st (PGamma [Some 0%nat] [Some 0%nat]) None = Undef.
Proof. repeat split. Qed.
