(** * Named combinations and the remaining operations on gamma curves (C17, C76, C129) *)
From Coq Require Import ZArith QArith Reals Lra Lia List Bool Permutation Sorted.
From Flocq Require Import Core IEEE754.BinarySingleNaN.
From Verif Require Import Arith Outcome ColorModel GammaModel GammaPtr Heap Converter Adjust Combine Spec F32 RArith Laws Spec32 History Spec_Conv Spec_Matrix Spec_Space Spec_Calc Spec_Blend Spec_Adjust Spec_Combine
  Gamma_Proofs GammaPtr_Proofs BlendHcy_Proofs Adjust2_Proofs Combine_Proofs Combine2_Proofs.
Import ListNotations.
Local Open Scope R_scope.

Lemma named_hues f n (h : heap R) X p c : In (f, n) [(create_triplet (AF := RArith), 3%Z); (create_quartet (AF := RArith), 4%Z); (create_quintet (AF := RArith), 5%Z)] ->
  at_addr h p c -> wf_color X c -> convertible X = true -> (cie X = true -> has_space h c) ->
  exists a d h1 x y z qs h', convertTo (Some p) HSL h = (Ok (Some a), h1) /\ at_addr h1 a d /\ hsl_of d x y z /\ (X = HSL -> d = c) /\
    f (Some p) h = (Ok (Some p :: map Some qs), h') /\ length qs = Z.to_nat (n - 1) /\
    forall k q, nth_error qs k = Some q -> exists v w, converted_from X h h' q v /\ hsl_of v w y z /\
      normalised (x + INR (S k) * (360 / IZR n)) w /\ (X = HSL -> at_addr h' q v).
Proof. intros [E|[E|[E|[]]]]; injection E as <- <-; apply combination_hues; lia. Qed.

Lemma set_parts32 o (g : gamma f32) (l : list (gamma_part f32)) : Forall (fun q => is_nan (g_border q) = false) l -> forall x,
  (forall p f, covers (AF := F32 o) l p f x -> @gamma_correction f32 (F32 o) (@set_gamma_curve_parts f32 (F32 o) g l) x = f x) /\
  (uncovered (AF := F32 o) l x -> @gamma_correction f32 (F32 o) (@set_gamma_curve_parts f32 (F32 o) g l) x = x) /\
  @inverse_gamma_correction f32 (F32 o) (@set_gamma_curve_parts f32 (F32 o) g l) x = @inverse_gamma_correction f32 (F32 o) g x.
Proof.
  intros O x. split; [|split; [|reflexivity]].
  - intros p f C. exact (gamma_select32 o l [] p f x O C).
  - intros U. exact (proj1 (gamma_outside o l [] x) U).
Qed.
Lemma set_inverse_parts32 o (g : gamma f32) (l : list (gamma_part f32)) : Forall (fun q => is_nan (g_border q) = false) l -> forall x,
  (forall p f, covers (AF := F32 o) l p f x -> @inverse_gamma_correction f32 (F32 o) (@set_inverse_gamma_curve_parts f32 (F32 o) g l) x = f x) /\
  (uncovered (AF := F32 o) l x -> @inverse_gamma_correction f32 (F32 o) (@set_inverse_gamma_curve_parts f32 (F32 o) g l) x = x) /\
  @gamma_correction f32 (F32 o) (@set_inverse_gamma_curve_parts f32 (F32 o) g l) x = @gamma_correction f32 (F32 o) g x.
Proof.
  intros O x. split; [|split; [|reflexivity]].
  - intros p f C. exact (inverse_gamma_select32 o [] l p f x O C).
  - intros U. exact (proj2 (gamma_outside o [] l x) U).
Qed.
Lemma copy32 o (l ig : list (gamma_part f32)) : Forall (fun q => is_nan (g_border q) = false) l -> Forall (fun q => is_nan (g_border q) = false) ig ->
  distinct_borders (AF := F32 o) l -> distinct_borders (AF := F32 o) ig ->
  @gamma_copy f32 (F32 o) (@gamma_ctor f32 (F32 o) l ig) = @gamma_ctor f32 (F32 o) l ig.
Proof.
  intros O1 O2 D1 D2. symmetry. exact (gamma_order32 o l _ ig _ O1 O2 D1 D2 (sort_parts_perm (AF := F32 o) l) (sort_parts_perm (AF := F32 o) ig)).
Qed.

Section P.
Context {F : Type} {AF : Arith F}.
Lemma add_null (st : piece_store F) g : 
  (pg_parts g <> [] -> padd_part st g None = Undef) /\ (pig_parts g <> [] -> padd_inverse_part st g None = Undef).
Proof.
  split; intros N; [unfold padd_part|unfold padd_inverse_part]; rewrite sort_null; try reflexivity;
    try (apply in_or_app; right; left; reflexivity); rewrite app_length; cbn [length].
  - destruct (pg_parts g); [congruence|cbn [length]; lia].
  - destruct (pig_parts g); [congruence|cbn [length]; lia].
Qed.
(** Adding a piece through a pointer is adding it by value. *)
Lemma add_refers (st : piece_store F) g p q xs ys : Forall2 (fun p x => piece_at st p = Ok x) (pg_parts g) xs -> Forall2 (fun p x => piece_at st p = Ok x) (pig_parts g) ys ->
  piece_at st p = Ok q -> exists g1 g2, padd_part st g p = Ok g1 /\ padd_inverse_part st g p = Ok g2 /\ forall x,
    pgamma_correction st g1 x = Ok (gamma_correction (add_gamma_curve_part (Gamma xs ys) q) x) /\
    pinverse_gamma_correction st g1 x = pinverse_gamma_correction st g x /\
    pinverse_gamma_correction st g2 x = Ok (inverse_gamma_correction (add_inverse_gamma_curve_part (Gamma xs ys) q) x) /\
    pgamma_correction st g2 x = pgamma_correction st g x.
Proof.
  intros A B P.
  assert (A' : refer st (pg_parts g ++ [p]) (xs ++ [q])) by (apply Forall2_app; [exact A|repeat constructor; exact P]).
  assert (B' : refer st (pig_parts g ++ [p]) (ys ++ [q])) by (apply Forall2_app; [exact B|repeat constructor; exact P]).
  destruct (sort_ptrs_ok st _ _ A') as [l' [E [R _]]]. destruct (sort_ptrs_ok st _ _ B') as [k' [E' [R' _]]].
  exists (PGamma l' (pig_parts g)), (PGamma (pg_parts g) k'). unfold padd_part, padd_inverse_part. rewrite E, E'. split; [reflexivity|]. split; [reflexivity|].
  intros x. unfold pgamma_correction, pinverse_gamma_correction, gamma_correction, inverse_gamma_correction. cbn.
  split; [apply apply_ptrs_ok, R|]. split; [reflexivity|]. split; [apply apply_ptrs_ok, R'|reflexivity].
Qed.
End P.
