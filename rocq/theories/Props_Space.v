(** * Properties of gamma curves, matrices, white points and RGB spaces (C17 - C27, C86)

    Piece selection is stated for binary32 (all oracles); the algebraic laws are stated
    in exact real arithmetic.  Vocabulary: Spec_Matrix.v and Spec_Space.v. *)
From Coq Require Import ZArith QArith Qreals Reals Lra Lia List Bool Permutation.
From Flocq Require Import Core IEEE754.BinarySingleNaN.
From Verif Require Import Arith Outcome ColorModel GammaModel MatrixModel SpaceModel F32 F32Facts RArith Laws Spec_Matrix Spec_Space.
From Verif Require Import Gamma_Proofs Gamma2_Proofs Matrix_Proofs Det_Proofs Invert_Proofs Space_Proofs White_Proofs.
Import ListNotations.
Local Open Scope R_scope.

(** C17 *)
Theorem C17_gamma_selects : forall o (l ig : list (gamma_part f32)) p f x,
  Forall (fun q => is_nan (g_border q) = false) l -> covers (AF := F32 o) l p f x ->
  @gamma_correction f32 (F32 o) (@gamma_ctor f32 (F32 o) l ig) x = f x.
Proof. exact gamma_select32. Qed.
Print Assumptions C17_gamma_selects.
Theorem C17_inverse_gamma_selects : forall o (l ig : list (gamma_part f32)) p f x,
  Forall (fun q => is_nan (g_border q) = false) ig -> covers (AF := F32 o) ig p f x ->
  @inverse_gamma_correction f32 (F32 o) (@gamma_ctor f32 (F32 o) l ig) x = f x.
Proof. exact inverse_gamma_select32. Qed.
Print Assumptions C17_inverse_gamma_selects.
Theorem C17_outside : forall o (l ig : list (gamma_part f32)) x,
  (uncovered (AF := F32 o) l x -> @gamma_correction f32 (F32 o) (@gamma_ctor f32 (F32 o) l ig) x = x) /\
  (uncovered (AF := F32 o) ig x -> @inverse_gamma_correction f32 (F32 o) (@gamma_ctor f32 (F32 o) l ig) x = x).
Proof. exact gamma_outside. Qed.
Print Assumptions C17_outside.
(** whatever sorted permutation std::sort produces *)
Theorem C17_any_sort : forall o (l l' : list (gamma_part f32)) p f x,
  Permutation l l' -> sorted_parts (AF := F32 o) l' -> covers (AF := F32 o) l p f x -> @apply_parts f32 (F32 o) l' x = f x.
Proof. exact gamma_any_sort32. Qed.
Print Assumptions C17_any_sort.
Theorem C17_order_irrelevant : forall o (l l' ig ig' : list (gamma_part f32)),
  Forall (fun q => is_nan (g_border q) = false) l -> Forall (fun q => is_nan (g_border q) = false) ig ->
  distinct_borders (AF := F32 o) l -> distinct_borders (AF := F32 o) ig ->
  Permutation l l' -> Permutation ig ig' -> @gamma_ctor f32 (F32 o) l ig = @gamma_ctor f32 (F32 o) l' ig'.
Proof. exact gamma_order32. Qed.
Print Assumptions C17_order_irrelevant.
Theorem C17_add_part : forall o (l ig : list (gamma_part f32)) p,
  Forall (fun q => is_nan (g_border q) = false) l -> is_nan (g_border p) = false -> distinct_borders (AF := F32 o) (l ++ [p]) ->
  @add_gamma_curve_part f32 (F32 o) (@gamma_ctor f32 (F32 o) l ig) p = @gamma_ctor f32 (F32 o) (l ++ [p]) ig.
Proof. exact gamma_add32. Qed.
Print Assumptions C17_add_part.
Theorem C17_add_inverse_part : forall o (l ig : list (gamma_part f32)) p,
  Forall (fun q => is_nan (g_border q) = false) ig -> is_nan (g_border p) = false -> distinct_borders (AF := F32 o) (ig ++ [p]) ->
  @add_inverse_gamma_curve_part f32 (F32 o) (@gamma_ctor f32 (F32 o) l ig) p = @gamma_ctor f32 (F32 o) l (ig ++ [p]).
Proof. exact gamma_add_inverse32. Qed.
Print Assumptions C17_add_inverse_part.
(** Two pieces given in the wrong order: 1/2 is covered by the one with border 1. *)
Example C17_example : forall (f g : R -> R),
  covers (AF := RArith) [GammaPart (Some f) 2; GammaPart (Some g) 1] (GammaPart (Some g) 1) g (1 / 2) /\
  uncovered (AF := RArith) [GammaPart (Some f) 2; GammaPart (Some g) 1] 3.
Proof.
  intros f g. split.
  - split; [right; left; reflexivity|]. split; [reflexivity|]. split; [apply Rleb_true; cbn; lra|].
    intros q h [<-|[<-|[]]] _ _; [right; apply Rltb_true; cbn; lra|left; reflexivity].
  - intros p h [<-|[<-|[]]] _; apply Rleb_false; cbn; lra.
Qed.

(** C18 *)
Theorem C18_power_presets : forall e x, In e [(18 # 10)%Q; (22 # 10)%Q; (26 # 10)%Q; (28 # 10)%Q; (219921875 # 100000000)%Q] -> 0 <= x <= 1 ->
  inverse_gamma_correction (power_gamma e) (gamma_correction (power_gamma e) x) = x /\
  gamma_correction (power_gamma e) (inverse_gamma_correction (power_gamma e) x) = x.
Proof. exact power_preset_inverse. Qed.
Print Assumptions C18_power_presets.
(** the five named presets are these curves *)
Example C18_presets_are_power : forall F (AF : Arith F), gamma1_8 = power_gamma (18 # 10) /\ gamma2_2 = power_gamma (22 # 10) /\
  gamma2_6 = power_gamma (26 # 10) /\ gamma2_8 = power_gamma (28 # 10) /\ gammaAdobe = power_gamma (219921875 # 100000000).
Proof. intros. repeat split. Qed.
Theorem C18_sRGB : forall x, 0 <= x <= 1 -> x <= 0.0031308 \/ 0.0031309 <= x ->
  inverse_gamma_correction gamma_sRGB (gamma_correction gamma_sRGB x) = x.
Proof. exact srgb_inverse. Qed.
Print Assumptions C18_sRGB.
Theorem C18_sRGB_back : forall y, 0 <= y <= 1 -> y <= 0.0404499 \/ 0.04045 < y ->
  gamma_correction gamma_sRGB (inverse_gamma_correction gamma_sRGB y) = y.
Proof. exact srgb_inverse'. Qed.
Print Assumptions C18_sRGB_back.
Theorem C18_UHDTV : forall x, 0 <= x <= 1 -> x <= 0.081 \/ 0.0815 <= x ->
  inverse_gamma_correction gammaUHDTV (gamma_correction gammaUHDTV x) = x.
Proof. exact uh_inverse. Qed.
Print Assumptions C18_UHDTV.
Theorem C18_UHDTV_back : forall y, 0 <= y <= 1 -> y <= 0.018 \/ 0.018053968510807 < y ->
  gamma_correction gammaUHDTV (inverse_gamma_correction gammaUHDTV y) = y.
Proof. exact uh_inverse'. Qed.
Print Assumptions C18_UHDTV_back.
Example C18_example : exists x, 0 <= x <= 1 /\ 0.0031309 <= x /\ 0.0815 <= x.
Proof. exists (1 / 2). lra. Qed.

(** C19: no input between 0.001953/16 and 0.001953 comes back *)
Theorem C19_romm_refuted : forall x, 0.001953 / 16 < x <= 0.001953 ->
  inverse_gamma_correction gammaRomm (gamma_correction gammaRomm x) <> x.
Proof. exact romm_fails. Qed.
Print Assumptions C19_romm_refuted.
Theorem C19_romm_partial : forall x, 0 <= x <= 1 -> x <= 0.001953 / 16 \/ 0.001953 < x ->
  inverse_gamma_correction gammaRomm (gamma_correction gammaRomm x) = x.
Proof. exact romm_inverse_ok. Qed.
Print Assumptions C19_romm_partial.

(** C20 *)
Theorem C20_power_monotone : forall e x y, In e [(18 # 10)%Q; (22 # 10)%Q; (26 # 10)%Q; (28 # 10)%Q; (219921875 # 100000000)%Q] ->
  0 <= x -> x <= y -> y <= 1 ->
  0 <= gamma_correction (power_gamma e) x <= gamma_correction (power_gamma e) y /\ gamma_correction (power_gamma e) y <= 1 /\
  0 <= inverse_gamma_correction (power_gamma e) x <= inverse_gamma_correction (power_gamma e) y /\ inverse_gamma_correction (power_gamma e) y <= 1 /\
  gamma_correction (power_gamma e) 0 = 0 /\ gamma_correction (power_gamma e) 1 = 1 /\
  inverse_gamma_correction (power_gamma e) 0 = 0 /\ inverse_gamma_correction (power_gamma e) 1 = 1.
Proof. exact power_preset_monotone. Qed.
Print Assumptions C20_power_monotone.

(** C86: three of the six piecewise curves step down at their break point *)
Theorem C86_piecewise_monotone_refuted :
  gamma_correction gamma_sRGB 0.00313080001 < gamma_correction gamma_sRGB 0.0031308 /\
  gamma_correction gammaUHDTV 0.08101 < gamma_correction gammaUHDTV 0.081 /\
  inverse_gamma_correction gammaRomm 0.002 < inverse_gamma_correction gammaRomm 0.001953.
Proof. exact (conj srgb_fwd_drop (conj uh_fwd_drop romm_inv_drop)). Qed.
Print Assumptions C86_piecewise_monotone_refuted.
Theorem C86_piecewise_monotone_partial : forall x y, 0 <= x -> x <= y -> y <= 1 ->
  (0 <= inverse_gamma_correction gamma_sRGB x <= inverse_gamma_correction gamma_sRGB y /\ inverse_gamma_correction gamma_sRGB y <= 1) /\
  (0 <= inverse_gamma_correction gammaUHDTV x <= inverse_gamma_correction gammaUHDTV y /\ inverse_gamma_correction gammaUHDTV y <= 1) /\
  (0 <= gamma_correction gammaRomm x <= gamma_correction gammaRomm y /\ gamma_correction gammaRomm y <= 1).
Proof. exact (fun x y X L Y => conj (srgb_inv_mono x y X L Y) (conj (uh_inv_mono x y X L Y) (romm_fwd_mono x y X L Y))). Qed.
Print Assumptions C86_piecewise_monotone_partial.

(** C21 *)
Theorem C21_entries : forall n a b i j, rect n n a -> rect n n b -> (i < n)%nat -> (j < n)%nat ->
  (exists s, madd a b = Ok s /\ rect n n s /\ entry s i j = entry a i j + entry b i j) /\
  (exists s, msub a b = Ok s /\ rect n n s /\ entry s i j = entry a i j - entry b i j) /\
  (exists s, mmul a b = Ok s /\ rect n n s /\ entry s i j = rsum n (fun k => entry a i k * entry b k j)) /\
  (exists s, transpose a = Ok s /\ rect n n s /\ entry s i j = entry a j i).
Proof. exact entries_of_results. Qed.
Print Assumptions C21_entries.
Theorem C21_scalar_entries : forall n a s i j, rect n n a -> (i < n)%nat -> (j < n)%nat ->
  (exists m, madds a s = Ok m /\ rect n n m /\ entry m i j = entry a i j + s) /\
  (exists m, msubs a s = Ok m /\ rect n n m /\ entry m i j = entry a i j - s) /\
  (exists m, mmuls a s = Ok m /\ rect n n m /\ entry m i j = entry a i j * s) /\
  (exists m, mdivs a s = Ok m /\ rect n n m /\ entry m i j = entry a i j / s).
Proof. exact scalar_entries. Qed.
Print Assumptions C21_scalar_entries.
Theorem C21_identity : forall n (m : matrix R), rect n n m -> exists i, identity n = Ok i /\ mmul i m = Ok m /\ mmul m i = Ok m.
Proof. exact id_neutral. Qed.
Print Assumptions C21_identity.
Theorem C21_mul_assoc : forall n a b c, rect n n a -> rect n n b -> rect n n c ->
  exists ab bc p, mmul a b = Ok ab /\ mmul b c = Ok bc /\ mmul ab c = Ok p /\ mmul a bc = Ok p.
Proof. exact mul_assoc. Qed.
Print Assumptions C21_mul_assoc.
Theorem C21_transpose : forall n (m : matrix R), rect n n m -> exists t, transpose m = Ok t /\ rect n n t /\ transpose t = Ok m.
Proof. exact transpose_twice. Qed.
Print Assumptions C21_transpose.
Theorem C21_transpose_mul : forall n (a b : matrix R), rect n n a -> rect n n b ->
  exists ab ta tb t, mmul a b = Ok ab /\ transpose a = Ok ta /\ transpose b = Ok tb /\ transpose ab = Ok t /\ mmul tb ta = Ok t.
Proof. exact transpose_mul. Qed.
Print Assumptions C21_transpose_mul.
Theorem C21_add_comm : forall n a b, rect n n a -> rect n n b -> exists s, madd a b = Ok s /\ madd b a = Ok s.
Proof. exact add_comm. Qed.
Print Assumptions C21_add_comm.
Theorem C21_add_assoc : forall n a b c, rect n n a -> rect n n b -> rect n n c ->
  exists ab bc s, madd a b = Ok ab /\ madd b c = Ok bc /\ madd ab c = Ok s /\ madd a bc = Ok s.
Proof. exact add_assoc. Qed.
Print Assumptions C21_add_assoc.
Theorem C21_sub_add : forall n a b, rect n n a -> rect n n b ->
  exists s d, madd a b = Ok s /\ msub s b = Ok a /\ msub a b = Ok d /\ madd d b = Ok a.
Proof. exact sub_add. Qed.
Print Assumptions C21_sub_add.
Theorem C21_distributes : forall n a b c, rect n n a -> rect n n b -> rect n n c ->
  exists bc p ab ac, madd b c = Ok bc /\ mmul a bc = Ok p /\ mmul a b = Ok ab /\ mmul a c = Ok ac /\ madd ab ac = Ok p.
Proof. exact mul_add_distr. Qed.
Print Assumptions C21_distributes.
Theorem C21_mul_vector : forall n a b v, rect n n a -> rect n n b -> length v = n ->
  exists ab bv r, mmul a b = Ok ab /\ mulvec b v = Ok bv /\ mulvec ab v = Ok r /\ mulvec a bv = Ok r.
Proof. exact mulvec_mul. Qed.
Print Assumptions C21_mul_vector.
Theorem C21_construction : forall n l, length l = (n * n)%nat ->
  exists m, matrix_sq n l = Ok m /\ rect n n m /\ forall i j, (i < n)%nat -> (j < n)%nat -> entry m i j = nth (i * n + j) l 0.
Proof. exact (fun n l L => ex_intro _ _ (conj (matrix_sq_ok n l L) (conj (rect_mk n n _) (entry_mk n n _)))). Qed.
Print Assumptions C21_construction.
Example C21_example : rect 2 2 (Mat 2 2 [[1; 2]; [3; 4]]) /\ entry (Mat 2 2 [[1; 2]; [3; 4]]) 1 0 = 3.
Proof. repeat split. intros row [<-|[<-|[]]]; reflexivity. Qed.

(** C22, for matrices of every size *)
Theorem C22_determinante : forall n m, rect n n m -> (1 <= n)%nat -> determinante m = Ok (det n (entry m)).
Proof. exact determinante_ok. Qed.
Print Assumptions C22_determinante.
Theorem C22_determinante_3x3 : forall m, rect 3 3 m -> determinante m = Ok (det3 m).
Proof. exact determinante3_ok. Qed.
Print Assumptions C22_determinante_3x3.
(** the expansion used as the definition of [det] may be along any row or any column,
    is invariant under transposition, and vanishes when two rows agree *)
Theorem C22_det_laws : forall n f k, (k < S n)%nat ->
  det (S n) f = rsum (S n) (fun j => alt (k + j) * f k j * det n (minor k j f)) /\
  det (S n) f = rsum (S n) (fun i => alt (i + k) * f i k * det n (minor i k f)) /\
  det (S n) (fun i j => f j i) = det (S n) f /\
  (forall q, (q < S n)%nat -> k <> q -> (forall j, (j < S n)%nat -> f k j = f q j) -> det (S n) f = 0).
Proof. exact det_laws. Qed.
Print Assumptions C22_det_laws.
Theorem C22_invert : forall n m, (1 <= n)%nat -> rect n n m -> det n (entry m) <> 0 ->
  exists i e, invert m = Ok i /\ identity n = Ok e /\ rect n n i /\ mmul m i = Ok e /\ mmul i m = Ok e.
Proof. exact invert_two_sided. Qed.
Print Assumptions C22_invert.
Theorem C22_invert_singular : forall n m, rect n n m -> (1 <= n)%nat -> det n (entry m) = 0 -> invert m = Ok m.
Proof. exact invert_singular. Qed.
Print Assumptions C22_invert_singular.
Example C22_example : det3 (mat3 2 0 1 0 3 0 1 0 1) = 3 /\ rect 3 3 (mat3 2 0 1 0 3 0 1 0 1).
Proof. split; [unfold det3, entry, mat3; cbn; ring|apply rect33]. Qed.

(** C23 *)
Theorem C23_nonsquare_refuted :
  (forall v : list (list R), rect 2 3 (Mat 2 3 v) -> transpose (Mat 2 3 v) = Undef) /\
  (forall v w : list (list R), rect 2 3 (Mat 2 3 v) -> rect 3 2 (Mat 3 2 w) -> mmul (Mat 2 3 v) (Mat 3 2 w) = Undef) /\
  (forall l : list R, length l = 6%nat -> matrix_data 3 2 l = Undef) /\
  (forall a b c d e f : R, matrix_data 2 3 [a; b; c; d; e; f] = Ok (Mat 2 3 [[a; b; c]; [c; d; e]])).
Proof. exact (conj transpose_2x3_undef (conj mmul_2x3_3x2_undef (conj matrix_data_3x2_undef matrix_data_2x3))). Qed.
Print Assumptions C23_nonsquare_refuted.
Example C23_example : rect 2 3 (Mat 2 3 [[1; 2; 3]; [4; 5; 6]]) /\ rect 3 2 (Mat 3 2 [[1; 2]; [3; 4]; [5; 6]]).
Proof. split; repeat split; intros row I; cbn in I; intuition (subst; reflexivity). Qed.

(** C24 *)
Theorem C24_chromaticity_sums_to_1 : forall x y z a b c, x + y + z <> 0 ->
  tristimulus_to_chromaticity (x, y, z) = (a, b, c) -> a + b + c = 1.
Proof. exact chroma_sum. Qed.
Print Assumptions C24_chromaticity_sums_to_1.
Theorem C24_to_chromaticity_and_back : forall x z, x + 1 + z <> 0 ->
  chromaticity_to_tristimulus (tristimulus_to_chromaticity (x, 1, z)) 1 = (x, 1, z).
Proof. exact tri_chroma_tri. Qed.
Print Assumptions C24_to_chromaticity_and_back.
Theorem C24_to_tristimulus_and_back : forall x y z Y, y <> 0 -> Y <> 0 -> x + y + z = 1 ->
  tristimulus_to_chromaticity (chromaticity_to_tristimulus (x, y, z) Y) = (x, y, z).
Proof. exact chroma_tri_chroma. Qed.
Print Assumptions C24_to_tristimulus_and_back.
Theorem C24_white_from_xy : forall x y, y <> 0 -> let w := white_point2 x y in
  ty_ w = 1 /\ cx w = x /\ cy w = y /\ cx w + cy w + cz w = 1 /\
  tristimulus_to_chromaticity (tx w, ty_ w, tz w) = (x, y, cz w).
Proof. exact white2. Qed.
Print Assumptions C24_white_from_xy.
Theorem C24_white_from_XYZ : forall x y z, x + y + z <> 0 -> let w := white_point3 x y z in
  tx w = x /\ ty_ w = y /\ tz w = z /\ cx w + cy w + cz w = 1 /\
  cx w * (x + y + z) = x /\ cy w * (x + y + z) = y /\ cz w * (x + y + z) = z.
Proof. exact white3. Qed.
Print Assumptions C24_white_from_XYZ.

(** C25: 16 of the 40 presets have a tristimulus whose y chromaticity is at least 40% off *)
Theorem C25_white_presets_refuted : forall w, In w bad_whites ->
  cy w * (14 / 10) * (tx w + ty_ w + tz w) < ty_ w /\ ~ consistent (1 / 100) w.
Proof. exact bad_inconsistent. Qed.
Print Assumptions C25_white_presets_refuted.
Theorem C25_white_presets_partial : forall w, In w good_whites -> consistent (1 / 1000) w.
Proof. exact good_consistent. Qed.
Print Assumptions C25_white_presets_partial.
Theorem C25_all_presets : forall w : white_point R, In w white_presets <-> In w good_whites \/ In w bad_whites.
Proof. exact presets_split. Qed.
Print Assumptions C25_all_presets.
(** What is wrong with them: X, and Z of illuminant E, are a tenth of what they should be. *)
Theorem C25_misplaced_point : forall w, In w bad_whites -> exists k, (k = 1 \/ k = 10) /\
  consistent (1 / 1000) (White (10 * tx w) (ty_ w) (k * tz w) (cx w) (cy w) (cz w)).
Proof. exact misplaced. Qed.
Print Assumptions C25_misplaced_point.
Example C25_example : In wp_E_2Degree bad_whites /\ In wp_D65_2Degree good_whites.
Proof. split; [right; left; reflexivity|do 2 right; left; reflexivity]. Qed.

(** C26 *)
Theorem C26_constructor : forall rx ry gx gy bx by_ a w g,
  nondegenerate (rx, ry, 1 - rx - ry) (gx, gy, 1 - gx - gy) (bx, by_, 1 - bx - by_) (white_xyz w) ->
  exists s, space_ctor rx ry gx gy bx by_ (Some (a, w)) g = Ok s /\
    s_white s = Some (a, w) /\ s_gamma s = g /\
    s_red s = (rx, ry, 1 - rx - ry) /\ s_green s = (gx, gy, 1 - gx - gy) /\ s_blue s = (bx, by_, 1 - bx - by_) /\
    maps_properly s (rx, ry, 1 - rx - ry) (gx, gy, 1 - gx - gy) (bx, by_, 1 - bx - by_) w.
Proof. exact space_ctor_ok. Qed.
Print Assumptions C26_constructor.
Theorem C26_set_white_point : forall s a w, nondegenerate (s_red s) (s_green s) (s_blue s) (white_xyz w) ->
  exists s', set_white_point s (Some (a, w)) = Ok s' /\
    s_white s' = Some (a, w) /\ s_gamma s' = s_gamma s /\ s_red s' = s_red s /\ s_green s' = s_green s /\ s_blue s' = s_blue s /\
    maps_properly s' (s_red s) (s_green s) (s_blue s) w.
Proof. exact set_white_point_ok. Qed.
Print Assumptions C26_set_white_point.
Example C26_example : nondegenerate (64 / 100, 33 / 100, 3 / 100) (3 / 10, 6 / 10, 1 / 10) (15 / 100, 6 / 100, 79 / 100) (95 / 100, 1, 109 / 100).
Proof. unfold nondegenerate, det_cols3. repeat split; lra. Qed.

(** C27 *)
Theorem C27_presets : forall addr o, In o (space_presets addr) -> exists s, o = Ok s /\ proper s.
Proof. exact presets_proper. Qed.
Print Assumptions C27_presets.
Example C27_example : length (space_presets (AF := RArith) 0) = 20%nat.
Proof. reflexivity. Qed.
