(** * Properties of named colours, pieces of gamma curves and unusual RGB spaces (C124 - C133) *)
From Coq Require Import ZArith QArith Reals Lra Lia List Bool String Permutation.
From Flocq Require Import Core IEEE754.BinarySingleNaN.
From Verif Require Import Arith Outcome ColorModel HexModel GammaModel GammaPtr MatrixModel SpaceModel Heap Converter Predef F32 RArith
  Spec Spec32 Spec_Matrix Spec_Space Spec_Conv Spec_Predef.
From Verif Require Import Convert_Proofs Run_Proofs Space_Proofs Space2_Proofs GammaPtr_Proofs Predef_Proofs.
Import ListNotations.
Local Open Scope Z_scope.

(** C124: every named colour, in every offered type, in every usable RGB space, on any heap *)
Theorem C124_named_colours : forall o n v sp i s T (h : heap f32), In (n, v) hexcode_colors -> In T offered ->
  (cie T = true -> sp = Some i /\ nth_error (spaces h) i = Some s /\ usable_space s) ->
  exists b h1 q r h2, @new_predefined_color f32 (F32 o) v sp h = (Ok (Some b), h1) /\
    @getter f32 (F32 o) T (Some b) h1 = (Ok (Some q), h2) /\ at_addr h2 q r /\
    colour_of_type T r /\ rgb_space r = sp /\ is_value (m_alpha r) (if string_dec n "Transparent" then 0 else 1) /\
    unchanged h h2.
Proof. exact named_colour. Qed.
Print Assumptions C124_named_colours.
Example C124_example : forall o, In ("Tomato"%string, 4294927175) hexcode_colors /\
  exists s, @space_sRGB f32 (F32 o) 0 = Ok s /\ usable_space s.
Proof.
  intros o. split.
  - assert (H : existsb (fun x => String.eqb (fst x) "Tomato" && Z.eqb (snd x) 4294927175) hexcode_colors = true) by (vm_compute; reflexivity).
    apply existsb_exists in H. destruct H as [[n v] [I E]]. apply andb_true_iff in E. destruct E as [E1 E2].
    apply String.eqb_eq in E1. apply Z.eqb_eq in E2. cbn in E1, E2. subst. exact I.
  - apply (presets_usable32 o 0%nat). left. reflexivity.
Qed.

(** C125: the RGB getter hands out the object the factory converts from; whatever the client
    stores there is what every later getter sees *)
Theorem C125_shared_refuted : forall F (AF : Arith F) (b : nat) (h : heap F) c d, at_addr h b c ->
  getter RGB_TRUE (Some b) h = (Ok (Some b), h) /\
  exists h', store (Some b) d h = (Ok tt, h') /\ getter RGB_TRUE (Some b) h' = (Ok (Some b), h') /\ at_addr h' b d.
Proof. exact (fun F AF => @rgb_shared F AF). Qed.
Print Assumptions C125_shared_refuted.

(** C126 *)
Theorem C126_names : NoDup (map fst hexcode_colors).
Proof. exact table_names. Qed.
Print Assumptions C126_names.
Theorem C126_values : forall n v m w, In (n, v) hexcode_colors -> In (m, w) hexcode_colors -> v = w ->
  n = m \/ In (n, m) [("Aqua", "Cyan"); ("Cyan", "Aqua"); ("Fuchsia", "Magenta"); ("Magenta", "Fuchsia")]%string.
Proof. exact table_values. Qed.
Print Assumptions C126_values.
Example C126_example : List.length hexcode_colors = 141%nat.
Proof. reflexivity. Qed.

(** C127: control flows off the end of these functions *)
Theorem C127_remove_refuted : forall g n, premove_part g n = Undef /\ premove_inverse_part g n = Undef.
Proof. exact remove_undef. Qed.
Print Assumptions C127_remove_refuted.

Local Open Scope R_scope.
(** C128: a piece whose border is changed after the curve was built *)
Theorem C128_border_change_refuted : forall f g : R -> R, exists c st',
  let st := [GammaPart (Some f) (1 / 2); GammaPart (Some g) 1] in
  pgamma_ctor st [Some 1; Some 0]%nat [] = Ok c /\ set_upper_border st 0 2 = Ok st' /\
  covers st' (GammaPart (Some g) 1) g (3 / 4) /\ pgamma_correction st' c (3 / 4) = Ok (f (3 / 4)).
Proof. exact stale_order. Qed.
Print Assumptions C128_border_change_refuted.
Theorem C128_copy_shares_refuted : forall f g : R -> R, exists c c' st',
  let st := [GammaPart (Some f) (1 / 2); GammaPart (Some g) 1] in
  pgamma_ctor st [Some 1; Some 0]%nat [] = Ok c /\ pgamma_copy st c = Ok c' /\ In (Some 0%nat) (pg_parts c') /\
  set_upper_border st 0 (1 / 8) = Ok st' /\
  pgamma_correction st c (1 / 4) = Ok (f (1 / 4)) /\ pgamma_correction st' c (1 / 4) = Ok (g (1 / 4)).
Proof. exact copy_shares. Qed.
Print Assumptions C128_copy_shares_refuted.
(** As long as no piece is modified, the pieces may be thought of as parts of the curve:
    the curve behaves like the one of GammaModel.v, for which C17 - C20 are stated. *)
Theorem C128_by_value_partial : forall F (AF : Arith F) (st : piece_store F) l ig xs ys,
  Forall2 (fun p x => piece_at st p = Ok x) l xs -> Forall2 (fun p x => piece_at st p = Ok x) ig ys ->
  exists g, pgamma_ctor st l ig = Ok g /\ Permutation l (pg_parts g) /\ Permutation ig (pig_parts g) /\
    forall x, pgamma_correction st g x = Ok (gamma_correction (gamma_ctor xs ys) x) /\
              pinverse_gamma_correction st g x = Ok (inverse_gamma_correction (gamma_ctor xs ys) x).
Proof. exact (fun F AF => @ctor_refers F AF). Qed.
Print Assumptions C128_by_value_partial.

(** C129: null pieces are skipped by the evaluation loops, but sorting dereferences them *)
Theorem C129_null_refuted : forall F (AF : Arith F) (st : piece_store F) (l ig : list piece_ptr),
  In None l -> (2 <= List.length l)%nat -> pgamma_ctor st l ig = Undef.
Proof. exact (fun F AF => @ctor_null F AF). Qed.
Print Assumptions C129_null_refuted.
Theorem C129_single_null_partial : forall F (AF : Arith F) (st : piece_store F),
  exists g, pgamma_ctor st [None] [None] = Ok g /\ forall x, pgamma_correction st g x = Ok x.
Proof. exact (fun F AF => @only_null F AF). Qed.
Print Assumptions C129_single_null_partial.

(** C130: equality of curves is identity of the pieces; equality of pieces reads the
    representation of a std::function *)
Theorem C130_rebuilt_refuted : forall F (AF : Arith F) (st : piece_store F) l ig l' ig' g g',
  l <> [] -> (forall p, In p l -> ~ In p l') ->
  pgamma_ctor st l ig = Ok g -> pgamma_ctor st l' ig' = Ok g' ->
  (exists xs, Forall2 (fun p x => piece_at st p = Ok x) l xs) -> (exists xs, Forall2 (fun p x => piece_at st p = Ok x) l' xs) ->
  pgamma_eqb g g' = false.
Proof. exact (fun F AF => @rebuilt_differs F AF). Qed.
Print Assumptions C130_rebuilt_refuted.
Theorem C130_part_refuted : forall F (AF : Arith F) (p : gamma_part F) f,
  g_fun p = Some f -> feq (g_border p) (g_border p) = true -> part_eqb p p = Undef.
Proof. exact (fun F AF => @part_eqb_undef F AF). Qed.
Print Assumptions C130_part_refuted.
Theorem C130_same_pieces_partial : forall a b, pgamma_eqb a b = true <-> a = b.
Proof. exact pgamma_eqb_iff. Qed.
Print Assumptions C130_same_pieces_partial.
Example C130_example : forall f : R -> R,
  let st := [GammaPart (Some f) 1; GammaPart (Some f) 1] in
  pgamma_ctor st [Some 0%nat] [] = Ok (PGamma [Some 0%nat] []) /\ pgamma_ctor st [Some 1%nat] [] = Ok (PGamma [Some 1%nat] []) /\
  pgamma_eqb (PGamma [Some 0%nat] []) (PGamma [Some 1%nat] []) = false.
Proof. repeat split. Qed.

(** C131: in a default-constructed RGB space every colour becomes XYZ (0, 0, 0) *)
Theorem C131_default_space_refuted : forall o (h : heap f32) p c i a, at_addr h p c -> @wf_color f32 (F32 o) RGB_DEEP c ->
  rgb_space c = Some i -> nth_error (spaces h) i = Some (@space_default f32 (F32 o) a) ->
  exists q r h', @to_xyz f32 (F32 o) (Some p) h = (Ok (Some q), h') /\ at_addr h' q r /\ ty r = XYZ /\
    forall k, (k < 3)%nat -> comp_sat r k (fun x => is_value x 0).
Proof. exact default_black. Qed.
Print Assumptions C131_default_space_refuted.

(** C132: primaries on a line *)
Theorem C132_degenerate_refuted : forall rx ry gx gy bx by_ a w g,
  det_cols3 (rx, ry, 1 - rx - ry) (gx, gy, 1 - gx - gy) (bx, by_, 1 - bx - by_) = 0 ->
  exists s, space_ctor rx ry gx gy bx by_ (Some (a, w)) g = Ok s /\ s_inverse s = s_matrix s /\
    det 3 (entry (s_matrix s)) = 0 /\ (forall v e, identity 3 = Ok e -> rect 3 3 v -> mmul (s_matrix s) v <> Ok e).
Proof. exact degenerate_accepted. Qed.
Print Assumptions C132_degenerate_refuted.
Example C132_example : det_cols3 (1 / 2, 1 / 4, 1 - 1 / 2 - 1 / 4) (1 / 4, 1 / 2, 1 - 1 / 4 - 1 / 2) (3 / 8, 3 / 8, 1 - 3 / 8 - 3 / 8) = 0.
Proof. unfold det_cols3. lra. Qed.

(** C133 *)
Theorem C133_white_equality : forall a b : white_point R, white_eqb a b = true <-> a = b.
Proof. exact white_eqb_R. Qed.
Print Assumptions C133_white_equality.
Theorem C133_white_equality_float : forall o (a b : white_point f32), @white_eqb f32 (F32 o) a b = true <->
  Beqb (tx a) (tx b) = true /\ Beqb (ty_ a) (ty_ b) = true /\ Beqb (tz a) (tz b) = true /\
  Beqb (cx a) (cx b) = true /\ Beqb (cy a) (cy b) = true /\ Beqb (cz a) (cz b) = true.
Proof. exact (fun o => @white_eqb_iff f32 (F32 o)). Qed.
Print Assumptions C133_white_equality_float.
Example C133_example : White 1 2 3 4 5 6 <> White 1 2 3 4 5 7.
Proof. intros H. injection H. lra. Qed.
