(** * White points and RGB colour space definitions:
    spaces/white_point.h and spaces/rgb_color_space_definition.h *)
From Coq Require Import ZArith QArith List Bool.
From Verif Require Import Arith Outcome ColorModel GammaModel MatrixModel.
Import ListNotations.

(** spaces/white_point.h:201-212 data members: m_tristimulus, m_chromaticity_coordinate *)
Record white_point (F : Type) := White { tx : F; ty_ : F; tz : F; cx : F; cy : F; cz : F }.
Arguments White {F} tx ty_ tz cx cy cz.
Arguments tx {F} w. Arguments ty_ {F} w. Arguments tz {F} w.
Arguments cx {F} w. Arguments cy {F} w. Arguments cz {F} w.

(** A pointer to a white point: null, or an address together with the (immutable)
    object stored there.  Pointer comparison looks at the address only. *)
Definition white_ptr (F : Type) := option (nat * white_point F).

(** [p == q] on white point pointers *)
Definition white_ptr_eqb {F} (p q : white_ptr F) : bool :=
  match p, q with
  | None, None => true
  | Some (a, _), Some (b, _) => Nat.eqb a b
  | _, _ => false
  end.

(** spaces/rgb_color_space_definition.h:232-277 data members.  The gamma pointer is
    represented by the curve it points to ([None]: null). *)
Record space_def (F : Type) := Space {
  s_red : F * F * F;
  s_green : F * F * F;
  s_blue : F * F * F;
  s_white : white_ptr F;
  s_gamma : option (gamma F);
  s_matrix : matrix F;
  s_inverse : matrix F
}.
Arguments Space {F} s_red s_green s_blue s_white s_gamma s_matrix s_inverse.
Arguments s_red {F} s. Arguments s_green {F} s. Arguments s_blue {F} s.
Arguments s_white {F} s. Arguments s_gamma {F} s. Arguments s_matrix {F} s. Arguments s_inverse {F} s.

Section Spaces.
Context {F : Type} {AF : Arith F}.

(** spaces/white_point.h:125-132 tristimulus_to_chromaticity_coordinate *)
Definition tristimulus_to_chromaticity (t : F * F * F) : F * F * F :=
  let '(x, y, z) := t in
  let s := fadd (fadd x y) z in
  (fdiv x s, fdiv y s, fdiv z s).

(** spaces/white_point.h:141-150 chromaticity_coordinate_to_tristimulus *)
Definition chromaticity_to_tristimulus (c : F * F * F) (Y : F) : F * F * F :=
  let '(x, y, z) := c in
  let factor := fdiv Y y in
  (fmul factor x, fmul factor y, fmul factor z).

(** spaces/white_point.h:31-40 white_point(tx, ty, tz, cx, cy) *)
Definition white_point5 (x y z c d : F) : white_point F :=
  White x y z c d (fsub (fsub (fz 1) c) d).

(** spaces/white_point.h:55-62 white_point(cx, cy) *)
Definition white_point2 (c d : F) : white_point F :=
  let e := fsub (fsub (fz 1) c) d in
  let '(x, y, z) := chromaticity_to_tristimulus (c, d, e) (fz 1) in
  White x y z c d e.

(** spaces/white_point.h:70-77 white_point(tx, ty, tz) *)
Definition white_point3 (x y z : F) : white_point F :=
  let '(c, d, e) := tristimulus_to_chromaticity (x, y, z) in
  White x y z c d e.

(** spaces/white_point.h:96-105 operator== *)
Definition white_eqb (a b : white_point F) : bool :=
  comps_equal [tx a; ty_ a; tz a] [tx b; ty_ b; tz b] &&
  comps_equal [cx a; cy a; cz a] [cx b; cy b; cz b].

Definition tristimulus (w : white_point F) : list F := [tx w; ty_ w; tz w].

(** spaces/rgb_color_space_definition.h:218-230 calculate_transformation_matrix *)
Definition calculate_transformation_matrix (red green blue : F * F * F) (white_XYZ : list F) : outcome (matrix F) :=
  let '(r0, r1, r2) := red in
  let '(g0, g1, g2) := green in
  let '(b0, b1, b2) := blue in
  let! cc := matrix_sq 3 [r0; g0; b0; r1; g1; b1; r2; g2; b2] in
  let! cc_inv := invert cc in
  let! tmp_vec := mulvec cc_inv white_XYZ in
  match tmp_vec with
  | [t0; t1; t2] =>
      let! tmp_mat := matrix_sq 3 [t0; fz 0; fz 0; fz 0; t1; fz 0; fz 0; fz 0; t2] in
      mmul cc tmp_mat
  | _ => Undef
  end.

(** The third chromaticity coordinate of a primary (lines 49, 53, 57). *)
Definition primary (x y : F) : F * F * F := (x, y, fsub (fsub (fz 1) x) y).

(** spaces/rgb_color_space_definition.h:177-182 set_white_point (dereferences the pointer) *)
Definition set_white_point (s : space_def F) (w : white_ptr F) : outcome (space_def F) :=
  match w with
  | None => Undef
  | Some (_, wp) =>
      let! m := calculate_transformation_matrix (s_red s) (s_green s) (s_blue s) (tristimulus wp) in
      let! i := invert m in
      Ok (Space (s_red s) (s_green s) (s_blue s) w (s_gamma s) m i)
  end.

(** spaces/rgb_color_space_definition.h:45-64 constructor *)
Definition space_ctor (rx ry gx gy bx by_ : F) (w : white_ptr F) (g : option (gamma F)) : outcome (space_def F) :=
  match w with
  | None => Undef
  | Some (_, wp) =>
      let! m := calculate_transformation_matrix (primary rx ry) (primary gx gy) (primary bx by_) (tristimulus wp) in
      let! i := invert m in
      Ok (Space (primary rx ry) (primary gx gy) (primary bx by_) w g m i)
  end.

(** spaces/white_point.h:19-21 white_point(): all values 0 *)
Definition white_default : white_point F := White (fz 0) (fz 0) (fz 0) (fz 0) (fz 0) (fz 0).
(** spaces/rgb_color_space_definition.h:19-21 rgb_color_space_definition(): coordinates 0, a
    new default white point (at address [addr]), an empty gamma curve, and matrices
    without rows and columns *)
Definition space_default (addr : nat) : space_def F :=
  let z := (fz 0, fz 0, fz 0) in
  Space z z z (Some (addr, white_default)) (Some (gamma_ctor [] [])) (Mat 0 0 []) (Mat 0 0 []).

(** spaces/rgb_color_space_definition.h:67-76 copy constructor *)
Definition space_copy (s : space_def F) : space_def F := s.

(** spaces/rgb_color_space_definition.h:203-206 set_gamma_curve *)
Definition set_gamma_curve (s : space_def F) (g : option (gamma F)) : space_def F :=
  Space (s_red s) (s_green s) (s_blue s) (s_white s) g (s_matrix s) (s_inverse s).


(** ** White point presets, spaces/white_point.h:220-470 *)

(** white_point.h:228 *)
Definition wp_D50_2Degree : white_point F :=
  white_point5 (lit (4821 # 5000)%Q) (lit (1)%Q) (lit (8251 # 10000)%Q) (lit (216 # 625)%Q) (lit (717 # 2000)%Q).

(** white_point.h:234 *)
Definition wp_D55_2Degree : white_point F :=
  white_point5 (lit (598 # 625)%Q) (lit (1)%Q) (lit (4607 # 5000)%Q) (lit (831 # 2500)%Q) (lit (1737 # 5000)%Q).

(** white_point.h:240 *)
Definition wp_D65_2Degree : white_point F :=
  white_point5 (lit (594 # 625)%Q) (lit (1)%Q) (lit (1361 # 1250)%Q) (lit (3127 # 10000)%Q) (lit (329 # 1000)%Q).

(** white_point.h:246 *)
Definition wp_D75_2Degree : white_point F :=
  white_point5 (lit (9497 # 10000)%Q) (lit (1)%Q) (lit (1533 # 1250)%Q) (lit (299 # 1000)%Q) (lit (787 # 2500)%Q).

(** white_point.h:252 *)
Definition wp_A_2Degree : white_point F :=
  white_point5 (lit (2197 # 20000)%Q) (lit (1)%Q) (lit (1779 # 5000)%Q) (lit (179 # 400)%Q) (lit (2037 # 5000)%Q).

(** white_point.h:259 *)
Definition wp_B_2Degree : white_point F :=
  white_point5 (lit (9909 # 10000)%Q) (lit (1)%Q) (lit (8531 # 10000)%Q) (lit (871 # 2500)%Q) (lit (879 # 2500)%Q).

(** white_point.h:266 *)
Definition wp_C_2Degree : white_point F :=
  white_point5 (lit (9807 # 10000)%Q) (lit (1)%Q) (lit (11823 # 10000)%Q) (lit (31 # 100)%Q) (lit (3161 # 10000)%Q).

(** white_point.h:272 *)
Definition wp_E_2Degree : white_point F :=
  white_point5 (lit (1 # 10)%Q) (lit (1)%Q) (lit (1 # 10)%Q) (lit (3333 # 10000)%Q) (lit (3333 # 10000)%Q).

(** white_point.h:278 *)
Definition wp_F1_2Degree : white_point F :=
  white_point5 (lit (9283 # 10000)%Q) (lit (1)%Q) (lit (5183 # 5000)%Q) (lit (313 # 1000)%Q) (lit (843 # 2500)%Q).

(** white_point.h:284 *)
Definition wp_F2_2Degree : white_point F :=
  white_point5 (lit (4959 # 5000)%Q) (lit (1)%Q) (lit (6739 # 10000)%Q) (lit (93 # 250)%Q) (lit (3751 # 10000)%Q).

(** white_point.h:290 *)
Definition wp_F3_2Degree : white_point F :=
  white_point5 (lit (83 # 800)%Q) (lit (1)%Q) (lit (2493 # 5000)%Q) (lit (409 # 1000)%Q) (lit (3943 # 10000)%Q).

(** white_point.h:296 *)
Definition wp_F4_2Degree : white_point F :=
  white_point5 (lit (5457 # 50000)%Q) (lit (1)%Q) (lit (3881 # 10000)%Q) (lit (4401 # 10000)%Q) (lit (4033 # 10000)%Q).

(** white_point.h:302 *)
Definition wp_F5_2Degree : white_point F :=
  white_point5 (lit (9087 # 10000)%Q) (lit (1)%Q) (lit (617 # 625)%Q) (lit (3137 # 10000)%Q) (lit (3453 # 10000)%Q).

(** white_point.h:308 *)
Definition wp_F6_2Degree : white_point F :=
  white_point5 (lit (973 # 1000)%Q) (lit (1)%Q) (lit (6019 # 10000)%Q) (lit (1889 # 5000)%Q) (lit (3883 # 10000)%Q).

(** white_point.h:314 *)
Definition wp_F7_2Degree : white_point F :=
  white_point5 (lit (594 # 625)%Q) (lit (1)%Q) (lit (87 # 80)%Q) (lit (391 # 1250)%Q) (lit (3291 # 10000)%Q).

(** white_point.h:320 *)
Definition wp_F8_2Degree : white_point F :=
  white_point5 (lit (9641 # 10000)%Q) (lit (1)%Q) (lit (8233 # 10000)%Q) (lit (1729 # 5000)%Q) (lit (3587 # 10000)%Q).

(** white_point.h:326 *)
Definition wp_F9_2Degree : white_point F :=
  white_point5 (lit (2509 # 25000)%Q) (lit (1)%Q) (lit (3393 # 5000)%Q) (lit (3741 # 10000)%Q) (lit (233 # 625)%Q).

(** white_point.h:332 *)
Definition wp_F10_2Degree : white_point F :=
  white_point5 (lit (9617 # 10000)%Q) (lit (1)%Q) (lit (8171 # 10000)%Q) (lit (173 # 500)%Q) (lit (1799 # 5000)%Q).

(** white_point.h:338 *)
Definition wp_F11_2Degree : white_point F :=
  white_point5 (lit (631 # 6250)%Q) (lit (1)%Q) (lit (6437 # 10000)%Q) (lit (761 # 2000)%Q) (lit (471 # 1250)%Q).

(** white_point.h:344 *)
Definition wp_F12_2Degree : white_point F :=
  white_point5 (lit (2701 # 25000)%Q) (lit (1)%Q) (lit (1961 # 5000)%Q) (lit (4369 # 10000)%Q) (lit (1011 # 2500)%Q).

(** white_point.h:352 *)
Definition wp_D50_10Degree : white_point F :=
  white_point5 (lit (1209 # 1250)%Q) (lit (1)%Q) (lit (4071 # 5000)%Q) (lit (3477 # 10000)%Q) (lit (719 # 2000)%Q).

(** white_point.h:358 *)
Definition wp_D55_10Degree : white_point F :=
  white_point5 (lit (9579 # 10000)%Q) (lit (1)%Q) (lit (2273 # 2500)%Q) (lit (3341 # 10000)%Q) (lit (3487 # 10000)%Q).

(** white_point.h:364 *)
Definition wp_D65_10Degree : white_point F :=
  white_point5 (lit (9481 # 10000)%Q) (lit (1)%Q) (lit (1073 # 1000)%Q) (lit (1569 # 5000)%Q) (lit (331 # 1000)%Q).

(** white_point.h:370 *)
Definition wp_D75_10Degree : white_point F :=
  white_point5 (lit (9441 # 10000)%Q) (lit (1)%Q) (lit (754 # 625)%Q) (lit (749 # 2500)%Q) (lit (1587 # 5000)%Q).

(** white_point.h:376 *)
Definition wp_A_10Degree : white_point F :=
  white_point5 (lit (5557 # 50000)%Q) (lit (1)%Q) (lit (44 # 125)%Q) (lit (4511 # 10000)%Q) (lit (4059 # 10000)%Q).

(** white_point.h:383 *)
Definition wp_B_10Degree : white_point F :=
  white_point5 (lit (9917 # 10000)%Q) (lit (1)%Q) (lit (84349 # 100000)%Q) (lit (3497 # 10000)%Q) (lit (3527 # 10000)%Q).

(** white_point.h:390 *)
Definition wp_C_10Degree : white_point F :=
  white_point5 (lit (608 # 625)%Q) (lit (1)%Q) (lit (5807 # 5000)%Q) (lit (3103 # 10000)%Q) (lit (319 # 1000)%Q).

(** white_point.h:396 *)
Definition wp_E_10Degree : white_point F :=
  white_point5 (lit (1 # 10)%Q) (lit (1)%Q) (lit (1 # 10)%Q) (lit (3333 # 10000)%Q) (lit (3333 # 10000)%Q).

(** white_point.h:402 *)
Definition wp_F1_10Degree : white_point F :=
  white_point5 (lit (9479 # 10000)%Q) (lit (1)%Q) (lit (10319 # 10000)%Q) (lit (3181 # 10000)%Q) (lit (671 # 2000)%Q).

(** white_point.h:408 *)
Definition wp_F2_10Degree : white_point F :=
  white_point5 (lit (1291 # 12500)%Q) (lit (1)%Q) (lit (3451 # 5000)%Q) (lit (237 # 625)%Q) (lit (459 # 1250)%Q).

(** white_point.h:414 *)
Definition wp_F3_10Degree : white_point F :=
  white_point5 (lit (681 # 6250)%Q) (lit (1)%Q) (lit (1299 # 2500)%Q) (lit (167 # 400)%Q) (lit (479 # 1250)%Q).

(** white_point.h:420 *)
Definition wp_F4_10Degree : white_point F :=
  white_point5 (lit (1437 # 12500)%Q) (lit (1)%Q) (lit (256 # 625)%Q) (lit (1123 # 2500)%Q) (lit (3907 # 10000)%Q).

(** white_point.h:426 *)
Definition wp_F5_10Degree : white_point F :=
  white_point5 (lit (1167 # 1250)%Q) (lit (1)%Q) (lit (9863 # 10000)%Q) (lit (3197 # 10000)%Q) (lit (214 # 625)%Q).

(** white_point.h:432 *)
Definition wp_F6_10Degree : white_point F :=
  white_point5 (lit (5107 # 50000)%Q) (lit (1)%Q) (lit (6207 # 10000)%Q) (lit (773 # 2000)%Q) (lit (473 # 1250)%Q).

(** white_point.h:438 *)
Definition wp_F7_10Degree : white_point F :=
  white_point5 (lit (9579 # 10000)%Q) (lit (1)%Q) (lit (673 # 625)%Q) (lit (789 # 2500)%Q) (lit (659 # 2000)%Q).

(** white_point.h:444 *)
Definition wp_F8_10Degree : white_point F :=
  white_point5 (lit (9711 # 10000)%Q) (lit (1)%Q) (lit (8113 # 10000)%Q) (lit (349 # 1000)%Q) (lit (1797 # 5000)%Q).

(** white_point.h:450 *)
Definition wp_F9_10Degree : white_point F :=
  white_point5 (lit (10211 # 100000)%Q) (lit (1)%Q) (lit (3391 # 5000)%Q) (lit (1891 # 5000)%Q) (lit (463 # 1250)%Q).

(** white_point.h:456 *)
Definition wp_F10_10Degree : white_point F :=
  white_point5 (lit (99 # 100)%Q) (lit (1)%Q) (lit (8313 # 10000)%Q) (lit (3509 # 10000)%Q) (lit (443 # 1250)%Q).

(** white_point.h:462 *)
Definition wp_F11_10Degree : white_point F :=
  white_point5 (lit (5193 # 50000)%Q) (lit (1)%Q) (lit (3281 # 5000)%Q) (lit (1927 # 5000)%Q) (lit (371 # 1000)%Q).

(** white_point.h:468 *)
Definition wp_F12_10Degree : white_point F :=
  white_point5 (lit (5571 # 50000)%Q) (lit (1)%Q) (lit (807 # 2000)%Q) (lit (177 # 400)%Q) (lit (3971 # 10000)%Q).

(** All white point presets. *)
Definition white_presets : list (white_point F) :=
  [wp_D50_2Degree;
   wp_D55_2Degree;
   wp_D65_2Degree;
   wp_D75_2Degree;
   wp_A_2Degree;
   wp_B_2Degree;
   wp_C_2Degree;
   wp_E_2Degree;
   wp_F1_2Degree;
   wp_F2_2Degree;
   wp_F3_2Degree;
   wp_F4_2Degree;
   wp_F5_2Degree;
   wp_F6_2Degree;
   wp_F7_2Degree;
   wp_F8_2Degree;
   wp_F9_2Degree;
   wp_F10_2Degree;
   wp_F11_2Degree;
   wp_F12_2Degree;
   wp_D50_10Degree;
   wp_D55_10Degree;
   wp_D65_10Degree;
   wp_D75_10Degree;
   wp_A_10Degree;
   wp_B_10Degree;
   wp_C_10Degree;
   wp_E_10Degree;
   wp_F1_10Degree;
   wp_F2_10Degree;
   wp_F3_10Degree;
   wp_F4_10Degree;
   wp_F5_10Degree;
   wp_F6_10Degree;
   wp_F7_10Degree;
   wp_F8_10Degree;
   wp_F9_10Degree;
   wp_F10_10Degree;
   wp_F11_10Degree;
   wp_F12_10Degree].


(** ** RGB space presets, spaces/rgb_color_space_definition.h:286-447.
    Each preset call allocates a new white point; [addr] is its address. *)

(** rgb_color_space_definition.h:299 *)
Definition space_sRGB (addr : nat) : outcome (space_def F) :=
  space_ctor (lit (16 # 25)%Q) (lit (33 # 100)%Q) (lit (3 # 10)%Q) (lit (3 # 5)%Q) (lit (3 # 20)%Q) (lit (3 # 50)%Q)
    (Some (addr, wp_D65_2Degree)) (Some gamma_sRGB).

(** rgb_color_space_definition.h:308 *)
Definition space_adobeRGB (addr : nat) : outcome (space_def F) :=
  space_ctor (lit (16 # 25)%Q) (lit (33 # 100)%Q) (lit (21 # 100)%Q) (lit (71 # 100)%Q) (lit (3 # 20)%Q) (lit (3 # 50)%Q)
    (Some (addr, wp_D65_2Degree)) (Some gammaAdobe).

(** rgb_color_space_definition.h:316 *)
Definition space_pal_secam (addr : nat) : outcome (space_def F) :=
  space_ctor (lit (16 # 25)%Q) (lit (33 # 100)%Q) (lit (29 # 100)%Q) (lit (3 # 5)%Q) (lit (3 # 20)%Q) (lit (3 # 50)%Q)
    (Some (addr, wp_D65_2Degree)) (Some gamma2_8).

(** rgb_color_space_definition.h:323 *)
Definition space_americaNTSC (addr : nat) : outcome (space_def F) :=
  space_ctor (lit (63 # 100)%Q) (lit (17 # 50)%Q) (lit (31 # 100)%Q) (lit (119 # 200)%Q) (lit (31 # 200)%Q) (lit (7 # 100)%Q)
    (Some (addr, wp_D65_2Degree)) (Some gamma2_2).

(** rgb_color_space_definition.h:330 *)
Definition space_oldNTSC (addr : nat) : outcome (space_def F) :=
  space_ctor (lit (67 # 100)%Q) (lit (33 # 100)%Q) (lit (21 # 100)%Q) (lit (71 # 100)%Q) (lit (7 # 50)%Q) (lit (2 # 25)%Q)
    (Some (addr, wp_C_2Degree)) (Some gamma2_2).

(** rgb_color_space_definition.h:337 *)
Definition space_appleRGB (addr : nat) : outcome (space_def F) :=
  space_ctor (lit (5 # 8)%Q) (lit (17 # 50)%Q) (lit (7 # 25)%Q) (lit (119 # 200)%Q) (lit (31 # 200)%Q) (lit (7 # 100)%Q)
    (Some (addr, wp_D65_2Degree)) (Some gamma1_8).

(** rgb_color_space_definition.h:345 *)
Definition space_dci_p3 (addr : nat) : outcome (space_def F) :=
  space_ctor (lit (17 # 25)%Q) (lit (8 # 25)%Q) (lit (53 # 200)%Q) (lit (69 # 100)%Q) (lit (3 # 20)%Q) (lit (3 # 50)%Q)
    (Some (addr, wp_D65_2Degree)) (Some gamma2_6).

(** rgb_color_space_definition.h:354 *)
Definition space_uhdtv (addr : nat) : outcome (space_def F) :=
  space_ctor (lit (177 # 250)%Q) (lit (73 # 250)%Q) (lit (17 # 100)%Q) (lit (797 # 1000)%Q) (lit (131 # 1000)%Q) (lit (23 # 500)%Q)
    (Some (addr, wp_D65_2Degree)) (Some gammaUHDTV).

(** rgb_color_space_definition.h:363 *)
Definition space_adobeWideGammutRGB (addr : nat) : outcome (space_def F) :=
  space_ctor (lit (147 # 200)%Q) (lit (53 # 200)%Q) (lit (23 # 200)%Q) (lit (413 # 500)%Q) (lit (157 # 1000)%Q) (lit (9 # 500)%Q)
    (Some (addr, wp_D50_2Degree)) (Some gammaAdobe).

(** rgb_color_space_definition.h:373 *)
Definition space_rommRGB (addr : nat) : outcome (space_def F) :=
  space_ctor (lit (7347 # 10000)%Q) (lit (2653 # 10000)%Q) (lit (399 # 2500)%Q) (lit (2101 # 2500)%Q) (lit (183 # 5000)%Q) (lit (1 # 10000)%Q)
    (Some (addr, wp_D50_2Degree)) (Some gammaRomm).

(** rgb_color_space_definition.h:380 *)
Definition space_bestRGB (addr : nat) : outcome (space_def F) :=
  space_ctor (lit (7347 # 10000)%Q) (lit (2653 # 10000)%Q) (lit (43 # 200)%Q) (lit (31 # 40)%Q) (lit (13 # 100)%Q) (lit (7 # 200)%Q)
    (Some (addr, wp_D50_2Degree)) (Some gamma2_2).

(** rgb_color_space_definition.h:387 *)
Definition space_betaRGB (addr : nat) : outcome (space_def F) :=
  space_ctor (lit (861 # 1250)%Q) (lit (389 # 1250)%Q) (lit (993 # 5000)%Q) (lit (7551 # 10000)%Q) (lit (253 # 2000)%Q) (lit (22 # 625)%Q)
    (Some (addr, wp_D50_2Degree)) (Some gamma2_2).

(** rgb_color_space_definition.h:394 *)
Definition space_bruceRGB (addr : nat) : outcome (space_def F) :=
  space_ctor (lit (16 # 25)%Q) (lit (33 # 100)%Q) (lit (7 # 25)%Q) (lit (13 # 20)%Q) (lit (3 # 20)%Q) (lit (3 # 50)%Q)
    (Some (addr, wp_D65_2Degree)) (Some gamma2_2).

(** rgb_color_space_definition.h:401 *)
Definition space_colorMatchRGB (addr : nat) : outcome (space_def F) :=
  space_ctor (lit (63 # 100)%Q) (lit (17 # 50)%Q) (lit (59 # 200)%Q) (lit (121 # 200)%Q) (lit (3 # 20)%Q) (lit (3 # 40)%Q)
    (Some (addr, wp_D50_2Degree)) (Some gamma1_8).

(** rgb_color_space_definition.h:408 *)
Definition space_donRGB4 (addr : nat) : outcome (space_def F) :=
  space_ctor (lit (87 # 125)%Q) (lit (3 # 10)%Q) (lit (43 # 200)%Q) (lit (153 # 200)%Q) (lit (13 # 100)%Q) (lit (7 # 200)%Q)
    (Some (addr, wp_D50_2Degree)) (Some gamma2_2).

(** rgb_color_space_definition.h:415 *)
Definition space_ektaSpacePS5 (addr : nat) : outcome (space_def F) :=
  space_ctor (lit (139 # 200)%Q) (lit (61 # 200)%Q) (lit (13 # 50)%Q) (lit (7 # 10)%Q) (lit (11 # 100)%Q) (lit (1 # 200)%Q)
    (Some (addr, wp_D50_2Degree)) (Some gamma2_2).

(** rgb_color_space_definition.h:422 *)
Definition space_ProPhotoRGB (addr : nat) : outcome (space_def F) :=
  space_ctor (lit (7347 # 10000)%Q) (lit (2653 # 10000)%Q) (lit (399 # 2500)%Q) (lit (2101 # 2500)%Q) (lit (183 # 5000)%Q) (lit (1 # 10000)%Q)
    (Some (addr, wp_D50_2Degree)) (Some gamma1_8).

(** rgb_color_space_definition.h:429 *)
Definition space_SMPTE_C_RGB (addr : nat) : outcome (space_def F) :=
  space_ctor (lit (63 # 100)%Q) (lit (17 # 50)%Q) (lit (31 # 100)%Q) (lit (119 # 200)%Q) (lit (31 # 200)%Q) (lit (7 # 100)%Q)
    (Some (addr, wp_D65_2Degree)) (Some gamma2_2).

(** rgb_color_space_definition.h:438 *)
Definition space_cieRGB (addr : nat) : outcome (space_def F) :=
  space_ctor (lit (7347 # 10000)%Q) (lit (2653 # 10000)%Q) (lit (1369 # 5000)%Q) (lit (3587 # 5000)%Q) (lit (833 # 5000)%Q) (lit (89 # 10000)%Q)
    (Some (addr, wp_E_2Degree)) (Some gamma2_2).

(** rgb_color_space_definition.h:447 *)
Definition space_cieXYZ (addr : nat) : outcome (space_def F) :=
  space_ctor (lit (1)%Q) (lit 0%Q) (lit 0%Q) (lit (1)%Q) (lit 0%Q) (lit 0%Q)
    (Some (addr, wp_E_2Degree)) (Some gamma2_2).

(** All RGB space presets. *)
Definition space_presets (addr : nat) : list (outcome (space_def F)) :=
  [space_sRGB addr;
   space_adobeRGB addr;
   space_pal_secam addr;
   space_americaNTSC addr;
   space_oldNTSC addr;
   space_appleRGB addr;
   space_dci_p3 addr;
   space_uhdtv addr;
   space_adobeWideGammutRGB addr;
   space_rommRGB addr;
   space_bestRGB addr;
   space_betaRGB addr;
   space_bruceRGB addr;
   space_colorMatchRGB addr;
   space_donRGB4 addr;
   space_ektaSpacePS5 addr;
   space_ProPhotoRGB addr;
   space_SMPTE_C_RGB addr;
   space_cieRGB addr;
   space_cieXYZ addr].


End Spaces.
