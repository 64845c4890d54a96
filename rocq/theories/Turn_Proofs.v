(** * Colour schemes of two, three and six colours permute and mirror RGB channels *)
From Coq Require Import ZArith Reals Lra Lia List.
From Verif Require Import Arith Outcome ColorModel Heap Converter Combine RArith Laws NormalForms Spec Spec_Matrix Spec_Conv Spec_Calc Spec_Round Spec_Formula Spec_Combine Spec_Turn
  Core2_Proofs Core3_Proofs Core4_Proofs Conv_Proofs HueR_Proofs Round_Proofs Formula_Proofs Formula2_Proofs Formula3_Proofs Combine_Proofs Combine2_Proofs.
Import ListNotations.
Local Open Scope R_scope.

Ltac absmm := unfold ur, ug, ub, cl, Rmin, Rmax, Rabs; repeat (destruct (Rle_dec _ _) || destruct (Rcase_abs _)).

(** ** Points of the hexagon *)
Definition point (t m d : R) : R * R * R := (m + d * ur t, m + d * ug t, m + d * ub t).
Definition next (t : R) : R := if Rlt_dec (t + 1) 6 then t + 1 else t - 5.

Lemma next_range t : 0 <= t < 6 -> 0 <= next t < 6.
Proof. intros H. unfold next. destruct (Rlt_dec _ _); lra. Qed.
Lemma next_unit t : 0 <= t < 6 -> ur (next t) = 1 - ug t /\ ug (next t) = 1 - ub t /\ ub (next t) = 1 - ur t.
Proof. intros H. unfold next. destruct (Rlt_dec _ _); repeat split; absmm; lra. Qed.
Lemma unit_one t : 0 <= t < 6 -> ur t = 1 \/ ug t = 1 \/ ub t = 1.
Proof.
  intros H. destruct (unit_zero (next t) (next_range t H)) as [E|[E|E]]; destruct (next_unit t H) as [A [B C]]; lra.
Qed.
Lemma point_ext t m d : 0 <= t < 6 -> 0 <= d -> let '(r, g, b) := point t m d in largest r g b = m + d /\ smallest r g b = m.
Proof.
  intros H D. cbn. destruct (unit_bounds t) as [B1 [B2 B3]].
  assert (U : forall x, 0 <= x <= 1 -> 0 <= d * x <= d). { intros x Hx. split; [apply Rmult_le_pos; lra|]. rewrite <- (Rmult_1_r d) at 2. apply Rmult_le_compat_l; lra. }
  pose proof (U _ B1). pose proof (U _ B2). pose proof (U _ B3). unfold largest, smallest. split.
  - assert (E : d * ur t = d \/ d * ug t = d \/ d * ub t = d) by (destruct (unit_one t H) as [E|[E|E]]; rewrite E, Rmult_1_r; auto).
    unfold Rmax. destruct (Rle_dec _ _); destruct (Rle_dec _ _); lra.
  - assert (E : d * ur t = 0 \/ d * ug t = 0 \/ d * ub t = 0) by (destruct (unit_zero t H) as [E|[E|E]]; rewrite E, Rmult_0_r; auto).
    unfold Rmin. destruct (Rle_dec _ _); destruct (Rle_dec _ _); lra.
Qed.
Lemma turn_point t m d : 0 <= t < 6 -> 0 <= d -> turn (point t m d) = point (next t) m d.
Proof.
  intros H D. pose proof (point_ext t m d H D) as E. unfold point in * . cbn in E. unfold turn. destruct E as [-> ->].
  destruct (next_unit t H) as [-> [-> ->]]. f_equal; [f_equal|]; ring.
Qed.
Lemma turns_point j t m d : 0 <= t < 6 -> 0 <= d -> turns j (point t m d) = point (Nat.iter j next t) m d /\ 0 <= Nat.iter j next t < 6 /\
  exists k : Z, Nat.iter j next t = t + INR j - 6 * IZR k.
Proof.
  intros H D. induction j as [|j [E [R [k K]]]].
  - split; [reflexivity|]. split; [exact H|]. exists 0%Z. cbn. ring.
  - change (turns (Datatypes.S j) (point t m d)) with (turn (turns j (point t m d))). change (Nat.iter (Datatypes.S j) next t) with (next (Nat.iter j next t)).
    rewrite E. split; [apply turn_point; assumption|]. split; [apply next_range, R|]. rewrite S_INR. unfold next at 1. rewrite K. destruct (Rlt_dec _ _); [exists k; ring|].
    exists (k + 1)%Z. rewrite plus_IZR. ring.
Qed.
Lemma last_point t m d : 359 / 60 < t < 6 -> 0 < d -> in_last_degree (point t m d).
Proof.
  intros H D. cbn. assert (E1 : ur t = 1) by (absmm; lra). assert (E2 : ug t = 0) by (absmm; lra). assert (E3 : ub t = 6 - t) by (absmm; lra).
  unfold near_360. rewrite E1, E2, E3. assert (0 < d * (6 - t)) by (apply Rmult_lt_0_compat; lra).
  assert (d * (6 - t) <= d * (1 / 60)) by (apply Rmult_le_compat_l; lra).
  assert (60 * (d * (6 - t)) < d). { replace d with (60 * (d * (1 / 60))) at 2 by field. apply Rmult_lt_compat_l; [lra|]. apply Rmult_lt_compat_l; lra. }
  lra.
Qed.

Lemma hue_last r g b : 359 < hexagon_hue r g b -> near_360 r g b.
Proof.
  unfold hexagon_hue, near_360. cbv zeta. pose proof (mx3_ge r g b) as X. pose proof (mn3_le r g b) as N. pose proof (mn3_in r g b) as I. rewrite largest_mx, smallest_mn.
  destruct (Req_EM_T _ 0) as [E|E]; [lra|]. set (d := mx3 r g b - mn3 r g b) in * . assert (D : 0 < d) by (unfold d in * ; lra).
  assert (Q : forall x y, mn3 r g b <= x <= mx3 r g b -> mn3 r g b <= y <= mx3 r g b -> 60 * (x - y) / d <= 60).
  { intros x y Hx Hy. apply (div_bounds _ d (-60) 60 D). unfold d. lra. }
  destruct (Req_EM_T r (mx3 r g b)) as [R|R]; [destruct (Rlt_dec g b) as [G|G]|destruct (Req_EM_T g (mx3 r g b)) as [G|G]].
  - intros H. assert (K : 60 * (g - b) / d * d > - 1 * d) by (apply Rmult_gt_compat_r; lra). unfold Rdiv in K. rewrite Rmult_assoc, Rinv_l, Rmult_1_r in K by lra.
    assert (mn3 r g b = g) by lra. unfold d in K. lra.
  - intros H. pose proof (Q g b ltac:(lra) ltac:(lra)). lra.
  - intros H. pose proof (Q b r ltac:(lra) ltac:(lra)). lra.
  - intros H. pose proof (Q r g ltac:(lra) ltac:(lra)). lra.
Qed.

(** Every colour outside the last degree is such a point. *)
Lemma as_point r g b : ~ near_360 r g b -> exists t m d, (r, g, b) = point t m d /\ 0 <= t <= 359 / 60 /\ 0 <= d /\ 60 * t = hexagon_hue r g b /\ m = smallest r g b /\ m + d = largest r g b.
Proof.
  intros N. assert (EX : largest r g b = mx3 r g b) by (unfold largest, mx3; rewrite Rmax_assoc; reflexivity).
  assert (EN : smallest r g b = mn3 r g b) by (unfold smallest, mn3; rewrite Rmin_assoc; reflexivity).
  rewrite EX, EN. destruct (Req_dec (mx3 r g b) (mn3 r g b)) as [E|E].
  - exists 0, (mn3 r g b), 0. destruct (grey_case r g b E) as [E1 [E2 E3]]. split; [|split; [lra|split; [lra|split; [|split; [reflexivity|lra]]]]].
    + unfold point. rewrite !Rmult_0_l, Rplus_0_r. congruence.
    + unfold hexagon_hue. cbv zeta. rewrite EX, EN. destruct (Req_EM_T _ _); lra.
  - assert (D : 0 < mx3 r g b - mn3 r g b) by (pose proof (mx3_ge r g b); pose proof (mn3_le r g b); lra).
    destruct (hue_unit r g b D N) as [T [U1 [U2 U3]]]. rewrite (hue_published r g b) in T, U1, U2, U3 by lra.
    assert (HH : hexagon_hue r g b <= 359).
    { destruct (Rle_lt_dec (hexagon_hue r g b) 359) as [A|A]; [exact A|]. exfalso. apply N. exact (hue_last r g b A). }
    rewrite Rmin_left in T, U1, U2, U3 by exact HH.
    exists (hexagon_hue r g b / 60), (mn3 r g b), (mx3 r g b - mn3 r g b).
    split; [unfold point; f_equal; [f_equal|]; lra|]. split; [lra|]. split; [lra|]. split; [field|]. split; [reflexivity|lra].
Qed.

(** ** Schemes of deep colours *)
Lemma same_turn t T j k m : 0 <= T < 6 -> T = t + INR j - 6 * IZR k -> forall (i : Z) w, 60 * t + 60 * INR j = 360 * IZR i + w -> 0 <= w < 360 -> m = w -> m = 60 * T.
Proof.
  intros HT ET i w E W ->. assert (K : (i = k)%Z); [|subst; lra].
  assert (-1 < i - k < 1)%Z; [|lia]. split; apply lt_IZR; rewrite minus_IZR; lra.
Qed.
Lemma sat_chroma mx mn : 0 <= mn <= mx -> mx <= 1 -> forall s, s = (if Req_EM_T mx mn then 0 else (mx - mn) / (1 - Rabs (mx + mn - 1))) ->
  (1 - Rabs (2 * ((mx + mn) / 2) - 1)) * s = mx - mn.
Proof.
  intros B1 B2 s ->. replace (2 * ((mx + mn) / 2)) with (mx + mn) by field. destruct (Req_EM_T mx mn) as [E|E]; [rewrite E; ring|].
  field. unfold Rabs. destruct (Rcase_abs _); lra.
Qed.
Lemma scheme_deep : forall n (h : heap R) p c r g b, In n [2; 3; 6]%Z -> at_addr h p c -> wf_color RGB_DEEP c -> comps c = [r; g; b] -> ~ in_last_degree (r, g, b) ->
  exists qs h', create_combination (Some p) n h = (Ok (Some p :: map Some qs), h') /\ length qs = Z.to_nat (n - 1) /\
  forall k q, nth_error qs k = Some q -> forall t, t = turns (S k * Z.to_nat (6 / n)) (r, g, b) -> ~ in_last_degree t ->
    exists d, at_addr h' q d /\ wf_color RGB_DEEP d /\ comps d = channels t /\ rgb_space d = rgb_space c.
Proof.
  intros n h p c r g b Hn A W Ec N.
  destruct (combination_ok RGB_DEEP n h p c ltac:(destruct Hn as [<-|[<-|[<-|[]]]]; lia) A W eq_refl ltac:(discriminate)) as [a [d [h1 [x [y [z [qs [h' [Ea [Aa [Wd [Ed [_ [E [L [U [ND K]]]]]]]]]]]]]]]]].
  exists qs, h'. split; [exact E|]. split; [exact L|]. intros k q Hq t Et Nt.
  destruct (deep_range c r g b W Ec) as [Br [Bg Bb]].
  destruct (hsl_published h p c r g b A W Ec) as [a' [d' [h1' [Ea' [Aa' [_ [Cd' _]]]]]]].
  change (to_hsl (Some p) h) with (convertTo (Some p) HSL h) in Ea'. rewrite Ea in Ea'. injection Ea' as <- <-.
  unfold at_addr in Aa, Aa'. rewrite Aa in Aa'. injection Aa' as <-. rewrite Ed in Cd'. injection Cd' as Ex Ey Ez.
  destruct (as_point r g b N) as [t0 [m [D [EP [Bt [BD [Eh [Em EM]]]]]]]].
  assert (HH : Rmin (hexagon_hue r g b) 359 = 60 * t0) by (rewrite <- Eh; apply Rmin_left; lra). rewrite HH in Ex.
  rewrite <- Em, <- EM in Ey, Ez.
  assert (B01 : 0 <= m /\ m + D <= 1).
  { rewrite EM, Em. unfold smallest, largest. split; [apply Rmin_glb; [lra|apply Rmin_glb; lra]|apply Rmax_lub; [lra|apply Rmax_lub; lra]]. }
  destruct (K k q Hq) as [Fq [v' [v [Ar [Wr [Sr [G [CF [Wv _]]]]]]]]].
  destruct (hsl_ranges d x y z Wd Ed) as [Hx [Hy Hz]].
  destruct (hsl_turned _ _ _ _ _ _ G Hy Hz) as [w [Hv [i [w0 [Ew [Bw Mw]]]]]].
  destruct CF as [p1 [h2 [h3 [_ [_ [A1 [E1 U1]]]]]]]. destruct Hv as [_ Cv].
  destruct (from_hsl h2 p1 v w y z A1 Cv Wv _ eq_refl) as [q' [d' [h3' [E3 [A3 [Td [Cd [_ Sd]]]]]]]].
  change (to_rgb_deep (Some p1) h2) with (convertTo (Some p1) RGB_DEEP h2) in E3. rewrite E1 in E3. injection E3 as <- <-.
  assert (A' : at_addr h' q d') by (apply (proj2 U1), A3). assert (d' = v') by (unfold at_addr in A', Ar; congruence). subst v'.
  exists d'. split; [exact A'|]. split; [exact Wr|]. split; [|exact Sr].
  set (j := (S k * Z.to_nat (6 / n))%nat) in * .
  assert (EJ : INR (S k) * (360 / IZR n) = 60 * INR j).
  { unfold j. rewrite mult_INR. destruct Hn as [<-|[<-|[<-|[]]]]; [change (Z.to_nat (6 / 2)) with 3%nat|change (Z.to_nat (6 / 3)) with 2%nat|change (Z.to_nat (6 / 6)) with 1%nat]; cbn [INR]; lra. }
  destruct (turns_point j t0 m D ltac:(lra) BD) as [ET [BT [i' ET']]]. rewrite <- EP, <- Et in ET. set (T := Nat.iter j next t0) in * .
  cbn [fadd fmul fdiv fofZ RArith] in Ew. rewrite !fzR, <- INR_IZR_INZ, Ex, EJ in Ew.
  pose proof (same_turn t0 T j i' w0 BT ET' i w0 Ew Bw eq_refl) as EW.
  rewrite Cd, Ey, Ez. rewrite (sat_chroma (m + D) m ltac:(lra) ltac:(lra) _ eq_refl).
  destruct (Rle_lt_dec T (359 / 60)) as [C|C].
  - rewrite Mw, EW, Rmin_left by lra. rewrite hexagon_unit by lra. replace (60 * T / 60) with T by field. rewrite ET. unfold lifted, point, channels. f_equal; [|f_equal; [|f_equal]]; field.
  - destruct (Req_dec D 0) as [Z|Z].
    + rewrite Mw. rewrite hexagon_unit by (unfold Rmin; destruct (Rle_dec _ _); lra). rewrite ET. unfold lifted, point, channels. rewrite Z. f_equal; [|f_equal; [|f_equal]]; field.
    + exfalso. apply Nt. rewrite ET. apply last_point; lra.
Qed.
