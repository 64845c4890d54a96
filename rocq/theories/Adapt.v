(** * manipulation/chromatic_adaptation.cpp *)
From Coq Require Import ZArith QArith List Bool.
From Verif Require Import Arith Outcome ColorModel GammaModel MatrixModel SpaceModel Heap Converter Calculation.
Import ListNotations.
Local Open Scope fl_scope.
Local Open Scope monad_scope.

Section Adapt.
Context {F : Type} {AF : Arith F}.
Local Notation color := (color F).
Local Notation M := (M F).
Local Notation "$ n" := (fz n%Z) (at level 1, n at level 0, format "$ n").

(** ** The static matrices, row by row; each is built with matrix<float>(3, 3, data) *)

(** chromatic_adaptation.cpp:4-9 *)
Definition m_von_kries : list F :=
  [lit (5003 # 12500); lit (1769 # 2500); lit (-8081 # 100000);
   lit (-2263 # 10000); lit (29133 # 25000); lit (457 # 10000);
   $0; $0; lit (45911 # 50000)].
(** chromatic_adaptation.cpp:11-16 *)
Definition m_inverted_von_kries : list F :=
  [lit (4649841 # 2500000); lit (-1411727 # 1250000); lit (1099487 # 5000000);
   lit (1805957 # 5000000); lit (10221 # 16000); lit (-1 # 156250);
   $0; $0; lit (2722659 # 2500000)].
(** chromatic_adaptation.cpp:18-23 *)
Definition m_bradford : list F :=
  [lit (8951 # 10000); lit (333 # 1250); lit (-807 # 5000);
   lit (-3751 # 5000); lit (3427 # 2000); lit (367 # 10000);
   lit (389 # 10000); lit (-137 # 2000); lit (1287 # 1250)].
(** chromatic_adaptation.cpp:25-30 *)
Definition m_inverted_bradford : list F :=
  [lit (9869929 # 10000000); lit (-1470543 # 10000000); lit (1599627 # 10000000);
   lit (4323053 # 10000000); lit (5183603 # 10000000); lit (30807 # 625000);
   lit (-85287 # 10000000); lit (100107 # 2500000); lit (9684867 # 10000000)].
(** chromatic_adaptation.cpp:32-37 *)
Definition m_xyz_scale : list F :=
  [$1; $0; - $0;
   - $0; $1; $0;
   $0; - $0; $1].
(** chromatic_adaptation.cpp:39-44 *)
Definition m_inverted_xyz_scale : list F :=
  [$1; - $0; $0;
   $0; $1; $0;
   - $0; $0; $1].
(** chromatic_adaptation.cpp:46-51 *)
Definition m_sharp : list F :=
  [lit (6347 # 5000); lit (-247 # 2500); lit (-853 # 5000);
   lit (-2091 # 2500); lit (9003 # 5000); lit (357 # 10000);
   lit (297 # 10000); lit (-63 # 2000); lit (5009 # 5000)].
(** chromatic_adaptation.cpp:53-58 *)
Definition m_inverted_sharp : list F :=
  [lit (81563 # 100000); lit (943 # 20000); lit (6861 # 50000);
   lit (37911 # 100000); lit (28847 # 50000); lit (11 # 250);
   lit (-613 # 50000); lit (837 # 50000); lit (3111 # 3125)].
(** chromatic_adaptation.cpp:60-65 *)
Definition m_cmccat97 : list F :=
  [lit (8951 # 10000); lit (333 # 1250); lit (-807 # 5000);
   lit (-3751 # 5000); lit (3427 # 2000); lit (367 # 10000);
   lit (389 # 10000); lit (-137 # 2000); lit (1287 # 1250)].
(** chromatic_adaptation.cpp:67-72 *)
Definition m_inverted_cmccat97 : list F :=
  [lit (98699 # 100000); lit (-2941 # 20000); lit (3999 # 25000);
   lit (43231 # 100000); lit (12959 # 25000); lit (4929 # 100000);
   lit (-853 # 100000); lit (1001 # 25000); lit (96849 # 100000)].
(** chromatic_adaptation.cpp:74-79 *)
Definition m_cmccat2000 : list F :=
  [lit (3991 # 5000); lit (3389 # 10000); lit (-1371 # 10000);
   lit (-2959 # 5000); lit (1939 # 1250); lit (203 # 5000);
   lit (1 # 1250); lit (239 # 10000); lit (9753 # 10000)].
(** chromatic_adaptation.cpp:81-86 *)
Definition m_inverted_cmccat2000 : list F :=
  [lit (21529 # 20000); lit (-11883 # 50000); lit (16121 # 100000);
   lit (5137 # 12500); lit (27717 # 50000); lit (3469 # 100000);
   lit (-219 # 20000); lit (-1339 # 100000); lit (51217 # 50000)].
(** chromatic_adaptation.cpp:88-93 *)
Definition m_cat02 : list F :=
  [lit (458 # 625); lit (537 # 1250); lit (-203 # 1250);
   lit (-1759 # 2500); lit (679 # 400); lit (61 # 10000);
   lit (3 # 1000); lit (17 # 1250); lit (4917 # 5000)].
(** chromatic_adaptation.cpp:95-100 *)
Definition m_inverted_cat02 : list F :=
  [lit (27403 # 25000); lit (-27887 # 100000); lit (731 # 4000);
   lit (45437 # 100000); lit (47353 # 100000); lit (721 # 10000);
   lit (-963 # 100000); lit (-57 # 10000); lit (101533 # 100000)].

(** [mat * v] for one of the matrices above *)
Definition apply_static (data v : list F) : outcome (F * F * F) :=
  let! m := matrix_data 3 3 data in
  let! r := mulvec m v in
  match r with [x; y; z] => Ok (x, y, z) | _ => Undef end.

(** [get_white_point()->...] of a white point pointer *)
Definition deref_white (w : white_ptr F) : outcome (white_point F) :=
  match w with Some (_, wp) => Ok wp | None => Undef end.

(** The part shared by all functions, e.g. chromatic_adaptation.cpp:364-399 and 114-119:
    the colour itself is returned if it has the target white point; otherwise it is
    converted to XYZ, [f] computes the new tristimulus values from the source and target
    white point, the XYZ colour and the input colour (which the conversion may have
    changed), and the new XYZ colour, which refers to a copy of the space definition with
    the target white point, is converted to the type of the input colour. *)
Definition adapt (f : white_point F -> white_point F -> color -> color -> outcome (F * F * F))
    (color : ptr) (target_white_point : white_ptr F) : M ptr :=
  c0 <- load color ;;
  s0 <- load_space (rgb_space c0) ;;
  if white_ptr_eqb (s_white s0) target_white_point then ret color
  else
    t <- to_xyz color ;;
    x <- load_as XYZ t ;;
    c <- load color ;;
    s <- load_space (rgb_space c) ;;
    source <- lift (deref_white (s_white s)) ;;
    target <- lift (deref_white target_white_point) ;;
    v <- lift (f source target x c) ;;
    def <- lift (set_white_point (space_copy s) target_white_point) ;;
    rgb_def <- alloc_space def ;;
    r <- lift (let '(x0, y0, z0) := v in xyz x0 y0 z0 (alpha x) rgb_def) ;;
    q <- alloc r ;;
    convertTo q (ty c).

(** chromatic_adaptation.cpp:369-391: the tristimulus values computed by do_adaption *)
Definition do_adaption_f (mat inverted_mat : list F) (source target : white_point F) (x c : color) : outcome (F * F * F) :=
  let! (s0, s1, s2) := apply_static mat (tristimulus source) in
  let! (d0, d1, d2) := apply_static mat (tristimulus target) in
  let! wp_matrix := matrix_data 3 3 [d0 / s0; $0; $0; $0; d1 / s1; $0; $0; $0; d2 / s2] in
  let! m := matrix_data 3 3 mat in
  let! i := matrix_data 3 3 inverted_mat in
  let! iw := mmul i wp_matrix in
  let! iwm := mmul iw m in
  let! r := mulvec iwm (comps x) in
  match r with [a; b; e] => Ok (a, b, e) | _ => Undef end.
(** chromatic_adaptation.cpp:364-399 with the test for the same white point *)
Definition do_adaption (mat inverted_mat : list F) : ptr -> white_ptr F -> M ptr := adapt (do_adaption_f mat inverted_mat).

(** chromatic_adaptation.cpp:102-110 *)
Definition von_kries_adaptation := do_adaption m_von_kries m_inverted_von_kries.
(** chromatic_adaptation.cpp:159-167 *)
Definition bradford_adaptation_simplified := do_adaption m_bradford m_inverted_bradford.
(** chromatic_adaptation.cpp:169-177 *)
Definition xyz_scale_adaptation := do_adaption m_xyz_scale m_inverted_xyz_scale.
(** chromatic_adaptation.cpp:179-187 *)
Definition sharp_adaptation := do_adaption m_sharp m_inverted_sharp.
(** chromatic_adaptation.cpp:189-197 *)
Definition cmccat97_adaptation_simplified := do_adaption m_cmccat97 m_inverted_cmccat97.
(** chromatic_adaptation.cpp:250-258 *)
Definition cmccat2000_adaptation_simplified := do_adaption m_cmccat2000 m_inverted_cmccat2000.
(** chromatic_adaptation.cpp:307-315 *)
Definition cat02_adaptation_simplified := do_adaption m_cat02 m_inverted_cat02.

(** The white point divided by its second tristimulus value, e.g. chromatic_adaptation.cpp:127-135 *)
Definition normalized_white (w : white_point F) : list F := [tx w / ty_ w; ty_ w / ty_ w; tz w / ty_ w].

(** chromatic_adaptation.cpp:120-152; [n] is the second component of the input colour *)
Definition bradford_f (source target : white_point F) (x c : color) : outcome (F * F * F) :=
  let! (r0, r1, r2) := apply_static m_bradford (comps x) in
  let! n := raw_comp c 1 in
  let '(r0, r1, r2) := (r0 / n, r1 / n, r2 / n) in
  let! (s0, s1, s2) := apply_static m_bradford (normalized_white source) in
  let! (d0, d1, d2) := apply_static m_bradford (normalized_white target) in
  let p := fpow (s2 / d2) (lit (834 # 10000)) in
  let t0 := (d0 * (r0 / s0)) * n in
  let t1 := (d1 * (r1 / s1)) * n in
  let div := r2 / s2 in
  let t2 := (d2 * fpow (fabs div) p) * n in
  let t2 := if div <? $0 then t2 * fz (-1) else t2 in
  apply_static m_inverted_bradford [t0; t1; t2].
(** chromatic_adaptation.cpp:112-157 *)
Definition bradford_adaptation : ptr -> white_ptr F -> M ptr := adapt bradford_f.

(** [if (d < 0.f) d = 0.f; if (d > 1.f) d = 1.f;] *)
Definition degree (d : F) : F :=
  let d := if d <? $0 then $0 else d in if $1 <? d then $1 else d.

(** chromatic_adaptation.cpp:207-242 *)
Definition cmccat97_f (f adapting_field_luminance : F) (source target : white_point F) (x c : color) : outcome (F * F * F) :=
  let! (r0, r1, r2) := apply_static m_cmccat97 (comps x) in
  let! n := raw_comp c 1 in
  let '(r0, r1, r2) := (r0 / n, r1 / n, r2 / n) in
  let! (s0, s1, s2) := apply_static m_cmccat97 (normalized_white source) in
  let! (d0, d1, d2) := apply_static m_cmccat97 (normalized_white target) in
  let d := degree (f - (f / ($1 + $2 * fpow adapting_field_luminance (lit (1 # 4)) + fpow adapting_field_luminance $2 / $300))) in
  let p := fpow (s2 / d2) (lit (834 # 10000)) in
  let t0 := n * (r0 * (d * (d0 / s0) + $1 - d)) in
  let t1 := n * (r1 * (d * (d1 / s1) + $1 - d)) in
  let t2 := n * (fpow (fabs r2) p * (d * (d2 / fpow s2 p) + $1 - d)) in
  let t2 := if r2 <? $0 then t2 * fz (-1) else t2 in
  apply_static m_inverted_cmccat97 [t0; t1; t2].
(** chromatic_adaptation.cpp:199-248 *)
Definition cmccat97_adaptation (color : ptr) (target : white_ptr F) (f adapting_field_luminance : F) : M ptr :=
  adapt (cmccat97_f f adapting_field_luminance) color target.

(** chromatic_adaptation.cpp:268-299 *)
Definition cmccat2000_f (f adapting reference : F) (source target : white_point F) (x c : color) : outcome (F * F * F) :=
  let! (r0, r1, r2) := apply_static m_cmccat2000 (comps x) in
  let! (s0, s1, s2) := apply_static m_cmccat2000 (tristimulus source) in
  let! (d0, d1, d2) := apply_static m_cmccat2000 (tristimulus target) in
  let d := degree (f * (lit (8 # 100) * flog10 (lit (1 # 2) * (adapting + reference)) + lit (76 # 100)
                        - lit (45 # 100) * ((adapting - reference) / (adapting + reference)))) in
  let wp_y_factor := d * (ty_ source / ty_ target) in
  let t0 := (wp_y_factor * (d0 / s0) + $1 - d) * r0 in
  let t1 := (wp_y_factor * (d1 / s1) + $1 - d) * r1 in
  let t2 := (wp_y_factor * (d2 / s2) + $1 - d) * r2 in
  apply_static m_inverted_cmccat2000 [t0; t1; t2].
(** chromatic_adaptation.cpp:260-305 *)
Definition cmccat2000_adaptation (color : ptr) (target : white_ptr F) (f adapting reference : F) : M ptr :=
  adapt (cmccat2000_f f adapting reference) color target.

(** chromatic_adaptation.cpp:325-356; wp_y_factor (line 347) is computed but not used *)
Definition cat02_f (f adapting_field_luminance : F) (source target : white_point F) (x c : color) : outcome (F * F * F) :=
  let! (r0, r1, r2) := apply_static m_cat02 (comps x) in
  let! (s0, s1, s2) := apply_static m_cat02 (tristimulus source) in
  let! (d0, d1, d2) := apply_static m_cat02 (tristimulus target) in
  let d := degree (f * ($1 - ($1 / lit (36 # 10)) * fexp ((- adapting_field_luminance - $42) / $92))) in
  let t0 := r0 * (d * (d0 / s0) + $1 - d) in
  let t1 := r1 * (d * (d1 / s1) + $1 - d) in
  let t2 := r2 * (d * (d2 / s2) + $1 - d) in
  apply_static m_inverted_cat02 [t0; t1; t2].
(** chromatic_adaptation.cpp:317-362 *)
Definition cat02_adaptation (color : ptr) (target : white_ptr F) (f adapting_field_luminance : F) : M ptr :=
  adapt (cat02_f f adapting_field_luminance) color target.

(** chromatic_adaptation.h:159-162 calculate_adapting_luminance *)
Definition calculate_adapting_luminance (luminance bg_luminance_factor : F) : F := luminance * bg_luminance_factor / $100.

End Adapt.
