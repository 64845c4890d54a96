(** * The conversions compute the published formulas (exact arithmetic) *)
From Coq Require Import ZArith QArith Qreals Reals Lra Lia List Bool.
From Verif Require Import Arith Outcome ColorModel GammaModel MatrixModel SpaceModel Heap Converter RArith
  Spec Laws NormalForms Alpha8 Core_Proofs Core2_Proofs Spec_Matrix Spec_Conv Spec_Round Conv_Proofs Conv2_Proofs Run_Proofs HueR_Proofs
  Round_Proofs Round2_Proofs Round3_Proofs Spec_Formula.
Import ListNotations.
Local Open Scope R_scope.

(** ** Correspondence of the published and the computed pieces *)
Lemma cut_clamp lo hi x : IZR lo <= IZR hi -> clamp (AF := RArith) x (fz hi) (fz lo) = cut (IZR lo) (IZR hi) x.
Proof. intros H. rewrite !fzR, clampR. unfold cut. rewrite Rmax_comm, Rmin_comm. reflexivity. Qed.
Lemma c01_cut x : @c01 R RArith x = cut 0 1 x.
Proof. unfold c01. rewrite cut_clamp by lra. reflexivity. Qed.
Lemma c100_cut x : @c100 R RArith x = cut 0 100 x.
Proof. unfold c100. rewrite cut_clamp by lra. reflexivity. Qed.
Lemma c255_cut x : @c255 R RArith x = cut 0 255 x.
Proof. unfold c255. rewrite cut_clamp by lra. reflexivity. Qed.
Lemma cut_id lo hi x : lo <= x <= hi -> cut lo hi x = x.
Proof. intros H. unfold cut. rewrite Rmin_right, Rmax_right; lra. Qed.

Lemma largest_mx r g b : largest r g b = mx3 r g b.
Proof. unfold largest, mx3. rewrite Rmax_assoc. reflexivity. Qed.
Lemma smallest_mn r g b : smallest r g b = mn3 r g b.
Proof. unfold smallest, mn3. rewrite Rmin_assoc. reflexivity. Qed.

Lemma hue_published r g b : mx3 r g b <> mn3 r g b ->
  @hue_norm R RArith (hue_from_rgb_helper (AF := RArith) r g b (mx3 r g b) (mn3 r g b) (mx3 r g b - mn3 r g b)) = Rmin (hexagon_hue r g b) 359.
Proof.
  intros NE. unfold hexagon_hue. rewrite largest_mx, smallest_mn.
  pose proof (mx3_ge r g b) as [X1 [X2 X3]]. pose proof (mn3_le r g b) as [N1 [N2 N3]].
  pose proof (mx3_in r g b) as XI.
  set (mx := mx3 r g b) in *. set (mn := mn3 r g b) in *. set (d := mx - mn).
  assert (Pd : 0 < d) by (unfold d; lra).
  unfold hue_from_rgb_helper. cbn [feq fmul ffmod fsub fdiv fadd RArith]. rewrite !fzR.
  destruct (Req_EM_T d 0) as [K|_]; [lra|].
  destruct (Req_EM_T mx r) as [E|E]; [rewrite Reqb_eq by exact E; destruct (Req_EM_T r mx) as [_|K]; [|lra]|
    rewrite Reqb_ne by exact E; destruct (Req_EM_T r mx) as [K|_]; [lra|]].
  - assert (Bq : -1 <= (g - b) / d <= 1) by (apply div_bounds; unfold d in *; lra).
    replace (60 * (g - b) / d) with (60 * ((g - b) / d)) by (unfold Rdiv; ring).
    assert (Hq : g - b = d * ((g - b) / d)) by (field; lra).
    set (q := (g - b) / d) in *. rewrite Rfmod_0 by lra.
    destruct (Rlt_dec g b) as [L|L].
    + assert (q < 0).
      { apply (Rmult_lt_reg_l d); lra. }
      rewrite hue_norm_neg by lra. f_equal. lra.
    + assert (0 <= q) by (apply (Rmult_le_reg_l d); lra).
      rewrite hue_norm_pos by lra. reflexivity.
  - destruct (Req_EM_T mx g) as [E2|E2]; [rewrite Reqb_eq by exact E2; destruct (Req_EM_T g mx) as [_|K]; [|lra]|
      rewrite Reqb_ne by exact E2; destruct (Req_EM_T g mx) as [K|_]; [lra|]].
    + assert (Bq : -1 <= (b - r) / d <= 1) by (apply div_bounds; unfold d in *; lra).
      rewrite hue_norm_pos by lra. f_equal. unfold Rdiv. ring.
    + assert (Bq : -1 <= (r - g) / d <= 1) by (apply div_bounds; unfold d in *; lra).
      rewrite hue_norm_pos by lra. f_equal. unfold Rdiv. ring.
Qed.

Lemma hue_grey r g b : mx3 r g b = mn3 r g b -> hexagon_hue r g b = 0.
Proof. intros E. unfold hexagon_hue. rewrite largest_mx, smallest_mn, E. destruct (Req_EM_T _ 0); [reflexivity|lra]. Qed.

Lemma hexagon_unit h c : 0 <= h < 360 -> hexagon_rgb h c = (c * ur (h / 60), c * ug (h / 60), c * ub (h / 60)).
Proof.
  intros H. unfold hexagon_rgb.
  repeat match goal with |- context [Rle_dec h ?x] => destruct (Rle_dec h x) end;
  (apply (f_equal2 pair); [apply (f_equal2 pair)|]);
  match goal with
  | |- _ = c * ?u => let e := fresh in
      first [assert (e : u = 1) by (clear c; absmm; lra); rewrite e; ring
            |assert (e : u = 0) by (clear c; absmm; lra); rewrite e; ring
            |apply (f_equal (Rmult c)); clear c; absmm; lra]
  end.
Qed.

Section RGB.
Variables (h : heap R) (p : nat) (c : color R) (r g b : R).
Hypothesis Hp : at_addr h p c.
Hypothesis W : wf_color RGB_DEEP c.
Hypothesis Ec : comps c = [r; g; b].
Let mx := mx3 r g b.
Let mn := mn3 r g b.

Lemma hsv_published : yields to_hsv h p (fun m => ty m = HSV /\
  comps m = [Rmin (hexagon_hue r g b) 359;
             (if Req_EM_T (largest r g b) 0 then 0 else (largest r g b - smallest r g b) / largest r g b);
             largest r g b] /\ m_alpha m = m_alpha c /\ rgb_space m = rgb_space c).
Proof.
  destruct (mxmn c r g b W Ec) as [B0 [B1 BD]]. rewrite largest_mx, smallest_mn. fold mx mn in B0, B1, BD |- *.
  eapply (yields_leaf to_hsv RGB_DEEP rgb_deep_to_hsv_f h p c); [disp|exact Hp|exact W| |].
  - unfold rgb_deep_to_hsv_f, with3. rewrite Ec. rn. change (Rmin (Rmin r g) b) with mn. change (Rmax (Rmax r g) b) with mx.
    rewrite !hsv_nf. rewrite (alpha_std c _ W eq_refl). 
    match goal with |- (if ?t then Ok ?a else Ok ?b) = _ => instantiate (1 := if t then a else b); destruct t; reflexivity end.
  - destruct (Req_EM_T mx mn) as [E|E]; [rewrite (Reqb_eq mx mn E)|rewrite (Reqb_ne mx mn E)]; cbn [ty comps m_alpha rgb_space];
      (split; [reflexivity|]); (split; [|split; reflexivity]).
    + rewrite (hue_grey r g b E). rewrite hue_norm_id by lra. rewrite Rmin_left by lra. rewrite !c01R by lra. rewrite E.
      repeat f_equal. destruct (Req_EM_T mn 0); [reflexivity|]. unfold Rdiv. ring.
    + destruct BD as [BD|BD]; [contradiction|]. pose proof (hue_published r g b E) as HP; fold mx mn in HP; rewrite HP.
      destruct (Req_EM_T mx 0) as [K|K]; [lra|]. rewrite !c01R; [reflexivity|lra|apply div_bounds; lra].
Qed.

Lemma hsl_published : yields to_hsl h p (fun m => ty m = HSL /\
  comps m = [Rmin (hexagon_hue r g b) 359;
             (if Req_EM_T (largest r g b) (smallest r g b) then 0
              else (largest r g b - smallest r g b) / (1 - Rabs (largest r g b + smallest r g b - 1)));
             (largest r g b + smallest r g b) / 2] /\ m_alpha m = m_alpha c /\ rgb_space m = rgb_space c).
Proof.
  destruct (mxmn c r g b W Ec) as [B0 [B1 BD]]. rewrite largest_mx, smallest_mn. fold mx mn in B0, B1, BD |- *.
  eapply (yields_leaf to_hsl RGB_DEEP rgb_deep_to_hsl_f h p c); [disp|exact Hp|exact W| |].
  - unfold rgb_deep_to_hsl_f, with3. rewrite Ec. rn. change (Rmin (Rmin r g) b) with mn. change (Rmax (Rmax r g) b) with mx.
    rewrite !hsl_nf. rewrite (alpha_std c _ W eq_refl). 
    match goal with |- (if ?t then Ok ?a else Ok ?b) = _ => instantiate (1 := if t then a else b); destruct t; reflexivity end.
  - destruct (Req_EM_T mx mn) as [E|E]; [rewrite (Reqb_eq mx mn E)|rewrite (Reqb_ne mx mn E)]; cbn [ty comps m_alpha rgb_space];
      (split; [reflexivity|]); (split; [|split; reflexivity]).
    + rewrite (hue_grey r g b E). rewrite hue_norm_id by lra. rewrite Rmin_left by lra. rewrite !c01R by lra. rewrite E.
      repeat f_equal. field.
    + destruct BD as [BD|BD]; [contradiction|]. pose proof (hue_published r g b E) as HP; fold mx mn in HP; rewrite HP.
      replace (@lit R RArith (1 # 2)) with (1 / 2) by (cbn; unfold Q2R; cbn; lra). rn.
      set (l := 1 / 2 * (mx + mn)). assert (Bl : 0 < l < 1) by (unfold l; lra).
      rewrite (Reqb_ne l 0), (Reqb_ne l 1) by lra. cbn [orb].
      assert (M : 1 - Rabs (2 * l - 1) = 2 * Rmin l (1 - l)) by (apply min_abs).
      assert (Mp : 0 < Rmin l (1 - l)) by (apply Rmin_glb_lt; lra).
      assert (Ml : (mx - mn) / 2 <= Rmin l (1 - l)) by (apply Rmin_glb; unfold l; lra).
      replace (mx + mn - 1) with (2 * l - 1) by (unfold l; lra).
      rewrite !c01R; [|lra|rewrite M; apply div_bounds; lra]. repeat f_equal. unfold l. lra.
Qed.

Lemma hsi_published : yields to_hsi h p (fun m => ty m = HSI /\
  comps m = [Rmin (hexagon_hue r g b) 359;
             (if Req_EM_T (r + g + b) 0 then 0 else 1 - smallest r g b / ((r + g + b) / 3));
             (r + g + b) / 3] /\ m_alpha m = m_alpha c /\ rgb_space m = rgb_space c).
Proof.
  destruct (deep_range c r g b W Ec) as [Br [Bg Bb]].
  destruct (mxmn c r g b W Ec) as [B0 [B1 BD]]. rewrite smallest_mn. fold mx mn in B0, B1, BD |- *.
  pose proof (mn3_le r g b) as ML. fold mn in ML. pose proof (mx3_in r g b) as XI. fold mx in XI.
  eapply (yields_leaf to_hsi RGB_DEEP rgb_deep_to_hsi_f h p c); [disp|exact Hp|exact W| |].
  - unfold rgb_deep_to_hsi_f, with3. rewrite Ec. rn. change (Rmin (Rmin r g) b) with mn. change (Rmax (Rmax r g) b) with mx.
    rewrite !hsi_nf. rewrite (alpha_std c _ W eq_refl). 
    match goal with |- (if ?t then Ok ?a else Ok ?b) = _ => instantiate (1 := if t then a else b); destruct t; reflexivity end.
  - destruct (Req_EM_T mx mn) as [E|E]; [rewrite (Reqb_eq mx mn E)|rewrite (Reqb_ne mx mn E)]; cbn [ty comps m_alpha rgb_space];
      (split; [reflexivity|]); (split; [|split; reflexivity]).
    + destruct (grey_case r g b E) as [E1 [E2 E3]]. fold mn in E1, E2, E3.
      rewrite (hue_grey r g b E). rewrite hue_norm_id by lra. rewrite Rmin_left by lra. rewrite !c01R by lra.
      replace (r + g + b) with (3 * mn) by lra. replace (3 * mn / 3) with mn by field. repeat f_equal.
      destruct (Req_EM_T (3 * mn) 0) as [K|K]; [reflexivity|]. field. lra.
    + destruct BD as [BD|BD]; [contradiction|]. pose proof (hue_published r g b E) as HP; fold mx mn in HP; rewrite HP.
      set (i := (r + g + b) / 3). assert (Bi : 0 < i <= 1) by (unfold i; lra).
      assert (D : 0 <= mn / i <= 1) by (apply div_bounds; unfold i in *; lra).
      rewrite !c01R by lra. destruct (Req_EM_T _ 0) as [K|K]; [unfold i in *; lra|reflexivity].
Qed.

Lemma hcy_published : yields to_hcy h p (fun m => ty m = HCY /\
  comps m = [Rmin (hexagon_hue r g b) 359; largest r g b - smallest r g b; luma709 r g b] /\
  m_alpha m = m_alpha c /\ rgb_space m = rgb_space c).
Proof.
  destruct (deep_range c r g b W Ec) as [Br [Bg Bb]].
  destruct (mxmn c r g b W Ec) as [B0 [B1 BD]]. rewrite largest_mx, smallest_mn. fold mx mn in B0, B1, BD |- *.
  assert (WR : @luma_r R RArith = 0.2126 /\ @luma_g R RArith = 0.7152 /\ @luma_b R RArith = 0.0722).
  { unfold luma_r, luma_g, luma_b. cbn. unfold Q2R. cbn. lra. }
  destruct WR as [WR [WG WB]].
  eapply (yields_leaf to_hcy RGB_DEEP rgb_deep_to_hcy_f h p c); [disp|exact Hp|exact W| |].
  - unfold rgb_deep_to_hcy_f, with3. rewrite Ec. rn. change (Rmin (Rmin r g) b) with mn. change (Rmax (Rmax r g) b) with mx.
    rewrite !hcy_nf. rewrite (alpha_std c _ W eq_refl). rewrite WR, WG, WB. fold (luma709 r g b).
    match goal with |- (if ?t then Ok ?a else Ok ?b) = _ => instantiate (1 := if t then a else b); destruct t; reflexivity end.
  - destruct (Req_EM_T mx mn) as [E|E]; [rewrite (Reqb_eq mx mn E)|rewrite (Reqb_ne mx mn E)]; cbn [ty comps m_alpha rgb_space];
      (split; [reflexivity|]); (split; [|split; reflexivity]).
    + destruct (grey_case r g b E) as [E1 [E2 E3]]. fold mn in E1, E2, E3.
      rewrite (hue_grey r g b E). rewrite hue_norm_id by lra. rewrite Rmin_left by lra. rewrite !c01R by lra.
      unfold luma709. repeat f_equal; lra.
    + destruct BD as [BD|BD]; [contradiction|]. pose proof (hue_published r g b E) as HP; fold mx mn in HP; rewrite HP.
      rewrite !c01R; [reflexivity|unfold luma709; lra|lra].
Qed.

Lemma cmyk_published : (r <> 0 \/ g <> 0 \/ b <> 0) -> yields to_cmyk h p (fun m => ty m = CMYK /\
  (forall k, k = 1 - largest r g b -> comps m = [(1 - r - k) / (1 - k); (1 - g - k) / (1 - k); (1 - b - k) / (1 - k); k]) /\
  m_alpha m = m_alpha c /\ rgb_space m = rgb_space c).
Proof.
  intros NZ. destruct (deep_range c r g b W Ec) as [Br [Bg Bb]]. rewrite largest_mx. fold mx.
  pose proof (mx3_ge r g b) as XG. pose proof (mx3_in r g b) as XI. fold mx in XG, XI.
  eapply (yields_leaf to_cmyk RGB_DEEP rgb_deep_to_cmyk_f h p c); [disp|exact Hp|exact W| |].
  - unfold rgb_deep_to_cmyk_f, with3. rewrite Ec. rn. change (Rmax (Rmax r g) b) with mx.
    rewrite cmyk_nf. rewrite (alpha_std c _ W eq_refl). reflexivity.
  - cbn [ty comps m_alpha rgb_space]. split; [reflexivity|]. split; [|split; reflexivity]. intros k ->.
    assert (Pm : 0 < mx <= 1) by lra.
    assert (D : forall v, 0 <= v <= mx -> 0 <= (1 - v - (1 - mx)) / (1 - (1 - mx)) <= 1) by (intros v Hv; apply div_bounds; lra).
    rewrite !c01R by (try apply D; lra). reflexivity.
Qed.

Lemma grey_published : yields to_grey_deep h p (fun m => ty m = GREY_DEEP /\ comps m = [(r + g + b) / 3] /\
  m_alpha m = m_alpha c /\ rgb_space m = rgb_space c).
Proof.
  destruct (deep_range c r g b W Ec) as [Br [Bg Bb]].
  eapply (yields_leaf to_grey_deep RGB_DEEP rgb_deep_to_grey_deep_f h p c); [disp|exact Hp|exact W| |].
  - unfold rgb_deep_to_grey_deep_f, with3. rewrite Ec. rn. rewrite grey_deepcolor_nf. rewrite (alpha_std c _ W eq_refl). reflexivity.
  - cbn [ty comps m_alpha rgb_space]. rewrite c01R by lra. auto.
Qed.
End RGB.
