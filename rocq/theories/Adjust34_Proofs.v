(** * Taking the saturation away in binary32 (C199, C200) *)
From Coq Require Import ZArith QArith Reals Lra Lia List Bool.
From Flocq Require Import Core IEEE754.BinarySingleNaN.
From Verif Require Import Calculation Blend Adjust Spec_Calc Spec_Blend Spec_Adjust Calc_Proofs Adjust_Proofs Adjust2_Proofs.
From Verif Require Import Arith Outcome ColorModel GammaModel MatrixModel SpaceModel Heap Converter F32 F32Facts RArith
  Spec Spec32 Laws NormalForms Alpha8 Core_Proofs Core2_Proofs Core3_Proofs Core4_Proofs Hue32 Spec_Matrix Spec_Conv Spec_Round
  Conv_Proofs Conv2_Proofs Conv3_Proofs Run_Proofs HueR_Proofs Round_Proofs Round2_Proofs Error_Proofs Error2_Proofs Error3_Proofs Error4_Proofs Error5_Proofs Error6_Proofs Error7_Proofs
  Spec_Error Spec_Byte Spec_Order Spec_Grey Grey32_Proofs Blend2_Proofs Blend3_Proofs Error8_Proofs Byte2_Proofs Spec_Calc Adjust32_Proofs Adjust33_Proofs.
Import ListNotations.
Local Open Scope R_scope.
Local Notation fin x := (is_finite x = true).
Local Notation cut1 x := (Rmax 0 (Rmin x 1)).

Section E.
Context (o : oracle).
Local Notation "x +. y" := (@fadd f32 (F32 o) x y) (at level 50, left associativity).
Local Notation "x -. y" := (@fsub f32 (F32 o) x y) (at level 50, left associativity).
Local Notation "x *. y" := (@fmul f32 (F32 o) x y) (at level 40, left associativity).
Local Notation "x /. y" := (@fdiv f32 (F32 o) x y) (at level 40, left associativity).
Local Notation "$ n" := (fz (H := F32 o) n) (at level 2).
Local Notation c1 := (@c01 f32 (F32 o)).
Local Notation tobyte x := (@c255 f32 (F32 o) (@fround f32 (F32 o) (x *. $255))).

(** ** In RGB *)
Lemma sat_grey p l x L X : is_value p (-1) -> near l L (61 / 10 * u) -> near x X (11 / 10 * u) -> 0 <= L <= 1 -> 0 <= X <= 1 -> near (c1 (sat1 o p l x)) L (12 * u).
Proof.
  intros [Fp Vp] Nl Nx HL HX. change (fval p = -1) in Vp. rewrite <- (cut1_id L HL). apply near_cut. unfold sat1.
  assert (D : near (l -. x) (L - X) (83 / 10 * u)). { eapply near_weaken; [apply (near_sub o _ _ _ _ _ _ 1 Nl Nx)|]; [apply Rabs_le; lra|num|num]. }
  assert (M : near (p *. (l -. x)) (-1 * (L - X)) (94 / 10 * u)).
  { eapply near_weaken; [apply (near_mul o p (l -. x) (-1) (L - X) 0 (83 / 10 * u) 1 1 1)|]; [split; [exact Fp|rewrite Vp, Rminus_diag_eq, Rabs_R0 by reflexivity; lra]|exact D|apply Rabs_le; lra|apply Rabs_le; lra|apply Rabs_le; lra|num|num]. }
  replace L with (X - -1 * (L - X)) by ring.
  eapply near_weaken; [apply (near_sub o _ _ _ _ _ _ 1 Nx M)|]; [apply Rabs_le; lra|num|num].
Qed.
Lemma nearest_exists K : (0 <= K <= 255000)%Z -> (K mod 1000 <> 500)%Z -> exists n, (0 <= n <= 255)%Z /\ (Z.abs (1000 * n - K) <= 499)%Z.
Proof.
  intros HK T. pose proof (Z.div_mod K 1000 ltac:(lia)) as D. pose proof (Z.mod_pos_bound K 1000 ltac:(lia)) as B. set (q := (K / 1000)%Z) in * . set (r := (K mod 1000)%Z) in * .
  destruct (Z_lt_le_dec r 500); [exists q|exists (q + 1)%Z]; lia.
Qed.
Lemma desaturate8 p (h : heap f32) i (c : color f32) r g b : is_value p (-1) -> at_addr h i c -> @wf_color f32 (F32 o) RGB_TRUE c -> is_byte r -> is_byte g -> is_byte b -> has_bytes r g b c ->
  ((299 * r + 587 * g + 114 * b) mod 1000 <> 500)%Z ->
  returns (@adjust f32 (F32 o) SaturateRGB (Some i) p) h (fun t => exists n, is_byte n /\ (Z.abs (1000 * n - (299 * r + 587 * g + 114 * b)) < 500)%Z /\ has_bytes n n n t).
Proof.
  intros Vp H W Hr Hg Hb B T. destruct (true_comps o c r g b W B) as [x [y [z [E [Vx [Vy Vz]]]]]].
  apply (returns_impl _ _ _ _ (true_run o SaturateRGB p h i c x y z eq_refl H W E)). intros t [Tt [_ [C _]]].
  destruct (byte_near o x r Hr Vx) as [Nx Bx]. destruct (byte_near o y g Hg Vy) as [Ny By]. destruct (byte_near o z b Hb Vz) as [Nz Bz].
  destruct (luma_near o _ _ _ _ _ _ _ Nx Ny Nz Bx By Bz ltac:(num)) as [NL BL].
  assert (NL' : near (luma1 o (c1 (x /. $255)) (c1 (y /. $255)) (c1 (z /. $255))) (luma (IZR r / 255) (IZR g / 255) (IZR b / 255)) (61 / 10 * u)) by (eapply near_weaken; [exact NL|num]).
  set (l := luma1 o (c1 (x /. $255)) (c1 (y /. $255)) (c1 (z /. $255))) in * . set (L := luma (IZR r / 255) (IZR g / 255) (IZR b / 255)) in * .
  unfold is_byte in * . set (K := (299 * r + 587 * g + 114 * b)%Z) in * .
  assert (EL : 255 * L = IZR K / 1000) by (unfold L, luma, K; rewrite !plus_IZR, !mult_IZR; field).
  destruct (nearest_exists K ltac:(unfold K; lia) T) as [n [Hn Dn]]. exists n. split; [exact Hn|]. split; [lia|].
  assert (DR : Rabs (IZR n - 255 * L) <= 499 / 1000).
  { rewrite EL. assert (Z : (-499 <= 1000 * n - K <= 499)%Z) by lia. destruct Z as [Z1 Z2]. apply IZR_le in Z1. apply IZR_le in Z2. rewrite minus_IZR, mult_IZR in Z1, Z2. apply Rabs_le. lra. }
  assert (Q : forall w X, near w X (11 / 10 * u) -> 0 <= X <= 1 -> is_value (tobyte (c1 (sat1 o p l w))) (IZR n)).
  { intros w X Nw Bw. pose proof (sat_grey p l w L X Vp NL' Nw BL Bw) as N.
    destruct (to_byte o (c1 (sat1 o p l w)) (255 * L) (12 * u)) as [k [Bk [Vk Hk]]]; [replace (255 * L / 255) with L by field; exact N|lra|num|].
    replace n with k; [exact Vk|]. apply int_eq. replace (IZR k - IZR n) with ((IZR k - 255 * L) - (IZR n - 255 * L)) by ring.
    eapply Rle_lt_trans; [apply Rabs_triang|]. rewrite Rabs_Ropp. eapply Rle_lt_trans; [apply Rplus_le_compat; [exact Hk|exact DR]|]. num. }
  split; [exact Tt|]. unfold comp_sat. rewrite C. cbn [step map nth_error]. fold l.
  split; [|split]; (eexists; split; [reflexivity|]); eapply Q; eauto.
Qed.
(** 0, 8, 86: the luma is 14.5 *)
Lemma desaturate8_tinted : exists (h : heap f32) (c : color f32), at_addr h 0%nat c /\ @wf_color f32 (F32 o) RGB_TRUE c /\ has_bytes 0 8 86 c /\
  is_value $(-1) (-1) /\ returns (@adjust f32 (F32 o) SaturateRGB (Some 0%nat) $(-1)) h (has_bytes 15 15 14).
Proof.
  destruct (rgb_truecolor_made (AF := F32 o) (AL := F32Laws o) $0 $8 $86 $255 None) as [c [E [W _]]]. rewrite rgb_truecolor_nf in E. apply Ok_inj in E.
  assert (Q : forall k, (0 <= k <= 255)%Z -> @c255 f32 (F32 o) $k = $k).
  { intros k Hk. destruct (fz_val o k) as [F V]; [unfold small; lia|]. apply c255_val; [exact F|]. rewrite V. split; apply IZR_le; lia. }
  rewrite !Q in E by lia. assert (Ec : comps c = [$0; $8; $86]) by (rewrite <- E; reflexivity). clear E.
  exists (Heap [c] []), c. assert (H0 : at_addr (Heap [c] []) 0%nat c) by reflexivity. split; [exact H0|]. split; [exact W|].
  split. { split; [apply (wf_ty _ _ W)|]. unfold comp_sat. rewrite Ec. cbn [nth_error]. split; [|split]; (eexists; split; [reflexivity|apply fz_val; sm]). }
  split; [apply fz_val; sm|].
  apply (returns_impl _ _ _ _ (true_run o SaturateRGB $(-1) _ _ c _ _ _ eq_refl H0 W Ec)). intros t [Tt [_ [C _]]].
  split; [exact Tt|]. unfold comp_sat. rewrite C. cbn [step map nth_error].
  assert (K : forall (x : f32) n, (0 <= n <= 255)%Z -> is_finite x = true -> Beqb x $n = true -> is_value x (IZR n)).
  { intros x n Hn Fx Q'. destruct (fz_val o n) as [F V]; [unfold small; lia|]. rewrite Beqb_fin in Q' by assumption. split; [exact Fx|].
    change (fval x = IZR n). rewrite <- V. destruct (Req_bool_spec (fval x) (fval $n)); [assumption|discriminate]. }
  split; [|split]; (eexists; split; [reflexivity|]); apply K; try lia; vm_compute; reflexivity.
Qed.

(** ** In HSL *)
Lemma deep_lightness (c d : color f32) r g b : @wf_color f32 (F32 o) RGB_DEEP c -> comps c = [r; g; b] -> @rgb_deep_to_hsl_f f32 (F32 o) c = Ok d ->
  exists hue s l, comps d = [hue; s; l] /\ near l ((Rmax (Rmax (fval r) (fval g)) (fval b) + Rmin (Rmin (fval r) (fval g)) (fval b)) / 2) (3 * u).
Proof.
  intros W Ec Ed. unfold rgb_deep_to_hsl_f, with3 in Ed. rewrite Ec in Ed. cbv zeta in Ed.
  destruct (chan o c r g b W Ec) as [[Fr Br] [[Fg Bg] [Fb Bb]]].
  destruct (chan_mx o c r g b W Ec) as [Fx Vx]. destruct (chan_mn o c r g b W Ec) as [Fn Vn]. unfold mx3 in Vx. unfold mn3 in Vn.
  set (mx := @fmax f32 (F32 o) (@fmax f32 (F32 o) r g) b) in * . set (mn := @fmin f32 (F32 o) (@fmin f32 (F32 o) r g) b) in * .
  assert (Bx : 0 <= fval mx <= 1) by (rewrite Vx; unfold Rmax; repeat destruct Rle_dec; lra). assert (Bn : 0 <= fval mn <= 1) by (rewrite Vn; unfold Rmin; repeat destruct Rle_dec; lra).
  rewrite <- Vx, <- Vn. clearbody mx mn. clear Vx Vn.
  destruct (@feq f32 (F32 o) mx mn) eqn:Q.
  - assert (V : fval mx = fval mn). { cbn [feq F32] in Q. rewrite Beqb_fin in Q by assumption. destruct (Req_bool_spec (fval mx) (fval mn)); [assumption|discriminate]. }
    rewrite (hsl_nf (AL := F32Laws o)) in Ed. apply Ok_inj in Ed. rewrite <- Ed. do 2 eexists. exists (c1 mn). split; [reflexivity|].
    destruct (c01_val o mn Fn Bn) as [F V']. split; [exact F|]. rewrite V', V. replace (_ - _) with 0 by field. rewrite Rabs_R0. num.
  - rewrite (hsl_nf (AL := F32Laws o)) in Ed. apply Ok_inj in Ed. rewrite <- Ed. do 2 eexists. exists (c1 (@lit f32 (F32 o) (1 # 2) *. (mx +. mn))). split; [reflexivity|].
    apply near_01; [|num|lra].
    assert (S : near (mx +. mn) (fval mx + fval mn) (21 / 10 * u)). { eapply near_weaken; [apply (near_add o _ _ _ _ 0 0 2 (near_self mx Fx) (near_self mn Fn))|]; [apply Rabs_le; lra|num|num]. }
    replace ((fval mx + fval mn) / 2) with (/ 2 * (fval mx + fval mn)) by field.
    assert (Hf : near (@lit f32 (F32 o) (1 # 2)) (/ 2) 0). { destruct (half32 o) as [[F B] V]. change (@half f32 (F32 o)) with (@lit f32 (F32 o) (1 # 2)) in * . split; [exact F|]. rewrite V. replace (1 / 2 - / 2) with 0 by field. rewrite Rabs_R0. lra. }
    eapply near_weaken; [apply (near_mul o _ _ _ _ _ _ (/ 2) 2 1 Hf S)|]; [apply Rabs_le; lra|apply Rabs_le; lra|apply Rabs_le; lra|num|num].
Qed.

Lemma hsl_off (d v : color f32) p hue s l : is_value p (-1) -> @wf_color f32 (F32 o) HSL d -> comps d = [hue; s; l] ->
  @named_set f32 (F32 o) HSL d (s *. ($1 +. p)) 1 = Ok v -> exists z, comps v = [hue; z; l] /\ B2R z = 0.
Proof.
  intros [Fp Vp] W E Ev. change (fval p = -1) in Vp. rewrite (hsl_set d _ _ hue s l W E (or_introl eq_refl)) in Ev. apply Ok_inj in Ev. rewrite <- Ev.
  exists (c1 (s *. ($1 +. p))). split; [reflexivity|]. destruct (fz_val o 1) as [F1 V1]; [sm|].
  assert (U : unit32 s). { assert (H : @within f32 (F32 o) 0 1 s) by (apply (wf_range _ _ W 1%nat); rewrite E; reflexivity). apply within32 in H; [exact H|sm|sm]. }
  destruct (Bplus_ok $1 p 0 1 F1 Fp) as [Fs Vs]; try sm; [rewrite V1, Vp; lra|].
  change (fval ($1 +. p) = rnd32 (fval $1 + fval p)) in Vs. rewrite V1, Vp in Vs. replace (1 + -1) with 0 in Vs by ring. rewrite rnd32_0 in Vs.
  destruct (mul_0 o s ($1 +. p) (proj1 U) Fs (or_intror Vs)) as [Fm Vm]. destruct (c01_val o _ Fm) as [F V]; [rewrite Vm; lra|].
  change (fval (c1 (s *. ($1 +. p))) = 0). congruence.
Qed.
Lemma minus_one p : is_value p (-1) -> @feq f32 (F32 o) p $0 = false.
Proof. intros [F V]. change (fval p = -1) in V. destruct (fz_val o 0) as [F0 V0]; [sm|]. apply ne_val; auto. rewrite V, V0. lra. Qed.
(** Any colour, desaturated in HSL and converted to deep RGB, is grey *)
Lemma desaturate_run X p (h : heap f32) i (c : color f32) : is_value p (-1) -> at_addr h i c -> @wf_color f32 (F32 o) X c -> X <> HSL -> (cie X = true -> has_space h c) ->
  exists a v hue z l h2, @wf_color f32 (F32 o) HSL v /\ comps v = [hue; z; l] /\ B2R z = 0 /\ rgb_space v = rgb_space c /\ at_addr h2 a v /\
    @adjust f32 (F32 o) SaturateHSL (Some i) p h = @convertTo f32 (F32 o) (Some a) X h2.
Proof.
  intros Vp H W NX N.
  destruct (adjust_hsl_run (AF := F32 o) 1 h X i c p ltac:(lia) (minus_one p Vp) H W N) as [a [d [x [v [h1 [Wd [_ [_ [_ [Ex [Ev [Wv [_ [Sv [_ [Aa E]]]]]]]]]]]]]]]].
  destruct (comps3 d (wf_len _ _ Wd)) as [hue [s [l Ed]]]. unfold raw_comp in Ex. rewrite Ed in Ex. cbn [nth_error] in Ex. apply Ok_inj in Ex. rewrite <- Ex in Ev.
  destruct (hsl_off d v p hue s l Vp Wd Ed Ev) as [z [Cv Z]].
  exists a, v, hue, z, l, (Heap (upd a v (colors h1)) (spaces h1)). split; [exact Wv|]. split; [exact Cv|]. split; [exact Z|]. split; [exact Sv|]. split; [apply (at_upd h1 a d v Aa)|exact E].
Qed.
Lemma desaturate_by (h h1 : heap f32) p i c a d hue s l X : is_value p (-1) -> at_addr h1 i c -> @wf_color f32 (F32 o) X c -> X <> HSL ->
  @to_hsl f32 (F32 o) (Some i) h = (Ok (Some a), h1) -> at_addr h1 a d -> @wf_color f32 (F32 o) HSL d -> rgb_space d = rgb_space c -> comps d = [hue; s; l] ->
  exists v z h2, @wf_color f32 (F32 o) HSL v /\ comps v = [hue; z; l] /\ B2R z = 0 /\ rgb_space v = rgb_space c /\ at_addr h2 a v /\
    @adjust f32 (F32 o) SaturateHSL (Some i) p h = @convertTo f32 (F32 o) (Some a) X h2.
Proof.
  intros Vp H W NX R Aa Wd Sd Ed.
  destruct (named_set_ok (AF := F32 o) HSL d (s *. ($1 +. p)) 1 Wd) as [v [Ev [Wv [Av Sv]]]]; [simpl; lia|].
  destruct (hsl_off d v p hue s l Vp Wd Ed Ev) as [z [Cv Z]].
  set (h2 := Heap (upd a v (colors h1)) (spaces h1)). assert (A2 : at_addr h2 a v) by apply (at_upd h1 a d v Aa).
  exists v, z, h2. split; [exact Wv|]. split; [exact Cv|]. split; [exact Z|]. split; [congruence|]. split; [exact A2|].
  assert (D : a <> i). { intros ->. unfold at_addr in H, Aa. rewrite H in Aa. injection Aa as Aa. apply NX. rewrite <- (wf_ty _ _ W), <- (wf_ty _ _ Wd), Aa. reflexivity. }
  assert (L : at_addr h2 i c) by (unfold at_addr, h2; cbn [colors]; rewrite upd_nth_other by congruence; exact H).
  change (@adjust f32 (F32 o) SaturateHSL (Some i) p h) with (@adjust_hsl f32 (F32 o) 1 (Some i) p h).
  unfold adjust_hsl, bind. rewrite (minus_one p Vp). change (@convertTo f32 (F32 o) (Some i) HSL) with (@to_hsl f32 (F32 o) (Some i)). rewrite R.
  rewrite (load_as_ok h1 a d HSL Aa Wd). unfold lift. unfold raw_comp at 1. rewrite Ed. cbn [nth_error obind]. rewrite Ev.
  rewrite (store_ok h1 a d v Aa). fold h2. unfold load. unfold at_addr in L. rewrite L. rewrite (wf_ty _ _ W). reflexivity.
Qed.
Lemma desaturate_deep p (h : heap f32) i (c : color f32) r g b : is_value p (-1) -> at_addr h i c -> @wf_color f32 (F32 o) RGB_DEEP c -> comps c = [r; g; b] ->
  returns (@adjust f32 (F32 o) SaturateHSL (Some i) p) h (fun t => ty t = RGB_DEEP /\ rgb_space t = rgb_space c /\
    exists v, approx ((Rmax (Rmax (B2R r) (B2R g)) (B2R b) + Rmin (Rmin (B2R r) (B2R g)) (B2R b)) / 2) (/ 4194304) v /\ forall j, (j < 3)%nat -> comp_sat t j (fun x => is_value x (B2R v))).
Proof.
  intros Vp H W Ec. destruct (@rgb_deep_to_hsl_ok f32 (F32 o) _ c W) as [d [Ed [Wd [Sd _]]]].
  destruct (deep_lightness c d r g b W Ec Ed) as [hue [s [l [Cd Nl]]]].
  assert (D1 : dispatches (@to_hsl f32 (F32 o)) RGB_DEEP (leaf RGB_DEEP (@rgb_deep_to_hsl_f f32 (F32 o)))) by disp.
  set (h1 := pushed h d). assert (A1 : at_addr h1 (length (colors h)) d) by apply at_new. assert (H1 : at_addr h1 i c) by (apply (proj2 (unchanged_new h d)), H).
  destruct (desaturate_by h h1 p i c (length (colors h)) d hue s l RGB_DEEP Vp H1 W ltac:(discriminate)) as [v [z [h2 [Wv [Cv [Z [Sv [A2 E]]]]]]]]; auto.
  { rewrite (D1 h i c H (wf_ty _ _ W)). apply (leaf_run (AF := F32 o) RGB_DEEP _ h i c d H W Ed). }
  destruct (hsl_grey o h2 (length (colors h)) v hue z l A2 Cv Z Wv) as [q [t [h3 [R [A3 G]]]]].
  exists q, t, h3. split; [rewrite E; exact R|]. split; [exact A3|].
  destruct G as [Tt [Ct [_ St]]]. split; [exact Tt|]. split; [congruence|]. exists l. split; [|exact Ct].
  destruct Nl as [Fl Bl]. split; [exact Fl|]. eapply Rle_trans; [exact Bl|]. num.
Qed.
Lemma tobyte_val (x y : f32) : unit32 x -> unit32 y -> fval x = fval y -> exists k, (0 <= k <= 255)%Z /\ is_value (tobyte x) (IZR k) /\ is_value (tobyte y) (IZR k).
Proof.
  intros [Fx Bx] [Fy By] E. destruct (fz_val o 255) as [F2 V2]; [sm|].
  destruct (Bmult_ok x $255 0 255 Fx F2) as [Mx Vx]; try sm; [rewrite V2; lra|].
  destruct (Bmult_ok y $255 0 255 Fy F2) as [My Vy]; try sm; [rewrite V2; lra|].
  change (fval (x *. $255) = rnd32 (fval x * fval $255)) in Vx. change (fval (y *. $255) = rnd32 (fval y * fval $255)) in Vy. change (fin (x *. $255)) in Mx. change (fin (y *. $255)) in My.
  assert (B : 0 <= fval (x *. $255) <= 255). { rewrite Vx, V2. split; [rewrite <- rnd32_0; apply rnd32_le; lra|]. replace 255 with (rnd32 (IZR 255)) at 2 by (apply rnd32_int; sm). apply rnd32_le. lra. }
  assert (Q : fval (y *. $255) = fval (x *. $255)) by (rewrite Vx, Vy, E; reflexivity).
  assert (K : forall w, fin w -> fval w = fval (x *. $255) -> is_value (@fround f32 (F32 o) w) (IZR (ZnearestA (fval (x *. $255))))).
  { intros w Fw Ew. cbn [fround F32]. destruct (Bnearbyint_correct 24 128 prec_lt_emax_32 mode_NA w) as [V [Fi _]].
    split; [rewrite Fi; exact Fw|]. change (fval (Bnearbyint mode_NA w) = IZR (ZnearestA (fval (x *. $255)))). rewrite V, <- Ew.
    unfold round, F2R, scaled_mantissa, cexp, FIX_exp. simpl. rewrite !Rmult_1_r. reflexivity. }
  set (k := ZnearestA (fval (x *. $255))) in * .
  assert (Bk : (0 <= k <= 255)%Z).
  { pose proof (Znearest_half (Z.leb 0) (fval (x *. $255))) as H. fold k in H. apply Rabs_le_inv in H.
    split.
    - assert (-1 < k)%Z; [|lia]. apply lt_IZR. lra.
    - assert (k < 256)%Z; [|lia]. apply lt_IZR. lra. }
  exists k. split; [exact Bk|]. destruct (K _ Mx eq_refl) as [Kx Ux]. destruct (K _ My Q) as [Ky Uy].
  assert (BB : 0 <= IZR k <= 255) by (split; apply IZR_le; lia).
  rewrite (c255_val o _ Kx), (c255_val o _ Ky); [split; split; assumption| |].
  - change (0 <= B2R (@fround f32 (F32 o) (y *. $255)) <= 255). rewrite Uy. exact BB.
  - change (0 <= B2R (@fround f32 (F32 o) (x *. $255)) <= 255). rewrite Ux. exact BB.
Qed.
(** The result for 8-bit colours: three equal bytes. *)
Lemma desaturate_true p (h : heap f32) i (c : color f32) : is_value p (-1) -> at_addr h i c -> @wf_color f32 (F32 o) RGB_TRUE c ->
  returns (@adjust f32 (F32 o) SaturateHSL (Some i) p) h (fun t => ty t = RGB_TRUE /\ rgb_space t = rgb_space c /\ exists n, is_byte n /\ has_bytes n n n t).
Proof.
  intros Vp H W. destruct (desaturate_run RGB_TRUE p h i c Vp H W ltac:(discriminate) ltac:(discriminate)) as [a [v [hue [z [l [h2 [Wv [Cv [Z [Sv [A2 E]]]]]]]]]]].
  destruct (hsl_grey o h2 a v hue z l A2 Cv Z Wv) as [q [m [h3 [R [A3 G]]]]].
  destruct (@hsl_to_rgb_deep_ok f32 (F32 o) _ v Wv) as [m' [Em [Wm [Sm _]]]].
  assert (D1 : dispatches (@to_rgb_deep f32 (F32 o)) HSL (leaf HSL (@hsl_to_rgb_deep_f f32 (F32 o)))) by disp.
  assert (D2 : dispatches (@to_rgb_true f32 (F32 o)) HSL (two HSL (@hsl_to_rgb_deep_f f32 (F32 o)) RGB_DEEP (@rgb_deep_to_rgb_true_f f32 (F32 o)))) by disp.
  rewrite (D1 h2 a v A2 (wf_ty _ _ Wv)), (leaf_run (AF := F32 o) HSL _ h2 a v m' A2 Wv Em) in R. injection R as Rq Rh.
  assert (Q : m = m'). { assert (T : at_addr (pushed h2 m') (length (colors h2)) m') by apply at_new. subst q h3. unfold at_addr in T, A3. rewrite T in A3. congruence. }
  subst m'. destruct G as [_ [Cm _]]. destruct (comps3 m (wf_len _ _ Wm)) as [x [y [w Ex]]].
  destruct (deep_unit o m x y w Wm Ex) as [Ux [Uy Uw]].
  assert (Vs : fval x = fval l /\ fval y = fval l /\ fval w = fval l).
  { destruct (Cm 0%nat ltac:(lia)) as [x0 [Ex0 [_ V0]]], (Cm 1%nat ltac:(lia)) as [x1 [Ex1 [_ V1]]], (Cm 2%nat ltac:(lia)) as [x2 [Ex2 [_ V2]]]. rewrite Ex in Ex0, Ex1, Ex2. cbn [nth_error] in Ex0, Ex1, Ex2.
    injection Ex0 as ->. injection Ex1 as ->. injection Ex2 as ->. auto. }
  destruct Vs as [Vx [Vy Vw]].
  destruct (tobyte_val x y Ux Uy ltac:(congruence)) as [k [Bk [Kx Ky]]]. destruct (tobyte_val x w Ux Uw ltac:(congruence)) as [k' [_ [Kx' Kw]]].
  assert (k' = k) by (apply eq_IZR; rewrite <- (proj2 Kx), <- (proj2 Kx'); reflexivity). subst k'.
  destruct (@rgb_deep_to_rgb_true_ok f32 (F32 o) _ m Wm) as [t [Et [Wt [St _]]]].
  assert (Ct : comps t = [tobyte x; tobyte y; tobyte w]).
  { unfold rgb_deep_to_rgb_true_f, with3 in Et. rewrite Ex in Et. rewrite rgb_truecolor_nf in Et. apply Ok_inj in Et. rewrite <- Et. reflexivity. }
  exists (length (colors (pushed h2 m))), t, (pushed (pushed h2 m) t). split.
  { rewrite E. change (@convertTo f32 (F32 o) (Some a) RGB_TRUE h2) with (@to_rgb_true f32 (F32 o) (Some a) h2). rewrite (D2 h2 a v A2 (wf_ty _ _ Wv)).
    apply (two_run (AF := F32 o) HSL _ RGB_DEEP _ h2 a v m t A2 Wv); auto. apply hsl_to_rgb_deep_ok. }
  split; [apply at_new|]. split; [apply (wf_ty _ _ Wt)|]. split; [congruence|].
  exists k. split; [exact Bk|]. split; [apply (wf_ty _ _ Wt)|]. unfold comp_sat. rewrite Ct. cbn [nth_error].
  split; [|split]; eexists; (split; [reflexivity|assumption]).
Qed.
End E.
