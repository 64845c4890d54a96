(** * Colour schemes of 8-bit colours in binary32 *)
From Coq Require Import ZArith QArith Reals Lra Lia List Bool.
From Flocq Require Import Core IEEE754.BinarySingleNaN.
From Verif Require Import Arith Outcome ColorModel GammaModel MatrixModel SpaceModel Heap Converter Combine F32 F32Facts RArith
  Spec Spec32 Laws NormalForms Alpha8 Core_Proofs Core2_Proofs Core3_Proofs Core4_Proofs Hue32 Spec_Matrix Spec_Conv Spec_Round Spec_Formula Spec_Combine Spec_Rank Spec_Turn
  Conv_Proofs Conv2_Proofs Run_Proofs HueR_Proofs Round_Proofs Round2_Proofs Error_Proofs Error2_Proofs Error3_Proofs Error4_Proofs Error5_Proofs Spec_Error Error7_Proofs
  Formula_Proofs Combine_Proofs Turn_Proofs Turn2_Proofs.
Import ListNotations.
Local Open Scope R_scope.
Local Notation fin x := (is_finite x = true).

Section E.
Context (o : oracle).
Local Notation "x +. y" := (@fadd f32 (F32 o) x y) (at level 50, left associativity).
Local Notation "x -. y" := (@fsub f32 (F32 o) x y) (at level 50, left associativity).
Local Notation "x *. y" := (@fmul f32 (F32 o) x y) (at level 40, left associativity).
Local Notation "x /. y" := (@fdiv f32 (F32 o) x y) (at level 40, left associativity).
Local Notation "$ n" := (fz (H := F32 o) n) (at level 2).

(** ** Hues that are multiples of 60 degrees are computed exactly *)
Lemma rnd_opp x : rnd32 (- x) = - rnd32 x.
Proof. apply round_NE_opp. Qed.
Lemma quot_exact (p q mx mn : f32) P Q x n (e : Z) : fin p -> fin q -> fin mx -> fin mn -> is_byte P -> is_byte Q -> is_byte x -> is_byte n -> (n < x)%Z ->
  fval p = q255 P -> fval q = q255 Q -> fval mx = q255 x -> fval mn = q255 n -> (e = 0 /\ P = Q \/ e = 1 /\ P = x /\ Q = n \/ e = -1 /\ P = n /\ Q = x)%Z ->
  is_value ((p -. q) /. (mx -. mn)) (IZR e).
Proof.
  intros Fp Fq Fx Fn BP BQ Bx Bn L Vp Vq Vx Vn C.
  assert (U : forall m, is_byte m -> 0 <= q255 m <= 1) by (intros m Hm; apply (q255_near m Hm)).
  pose proof (U P BP). pose proof (U Q BQ). pose proof (U x Bx). pose proof (U n Bn).
  pose proof (rise_q255 n x Bn Bx L) as R. destruct (q255_near n Bn) as [N1 _]. destruct (q255_near x Bx) as [N2 _]. apply Rabs_le_inv in N1, N2.
  assert (L1 : IZR n + 1 <= IZR x) by (rewrite <- plus_IZR; apply IZR_le; lia).
  destruct (Bminus_ok mx mn 0 1 Fx Fn) as [Fd Vd]; try sm; [rewrite Vx, Vn; lra|].
  destruct (Bminus_ok p q (-1) 1 Fp Fq) as [Fa Va]; try sm; [rewrite Vp, Vq; lra|].
  change (@fsub f32 (F32 o)) with (Bminus mode_NE (prec := 24) (emax := 128)) in * .
  assert (NZ : / 512 <= fval (Bminus mode_NE mx mn)).
  { destruct (near_sub o mx mn (fval mx) (fval mn) 0 0 1 (near_self mx Fx) (near_self mn Fn)) as [_ K]; [rewrite Vx, Vn; apply Rabs_le; lra|lra|].
    change (mx -. mn) with (Bminus mode_NE mx mn) in K. apply Rabs_le_inv in K. rewrite Vx, Vn in K. num. }
  assert (E : fval (Bminus mode_NE p q) = IZR e * fval (Bminus mode_NE mx mn)).
  { rewrite Va, Vd, Vp, Vq, Vx, Vn. destruct C as [[-> ->]|[[-> [-> ->]]|[-> [-> ->]]]].
    - replace (q255 Q - q255 Q) with 0 by ring. rewrite rnd32_0. ring.
    - ring.
    - replace (q255 n - q255 x) with (- (q255 x - q255 n)) by ring. rewrite rnd_opp. ring. }
  assert (Q1 : fval (Bminus mode_NE p q) / fval (Bminus mode_NE mx mn) = IZR e) by (rewrite E; field; lra).
  destruct (Bdiv_ok (Bminus mode_NE p q) (Bminus mode_NE mx mn) (-1) 1 Fa Fd) as [Fv Vv]; try sm; [lra|rewrite Q1; destruct C as [[-> _]|[[-> _]|[-> _]]]; lra|].
  split; [exact Fv|]. rewrite Q1, rnd32_int in Vv by (unfold F32Facts.small; lia). exact Vv.
Qed.
Lemma sixty (v : f32) (e : Z) : is_value v (IZR e) -> (-10 <= e <= 10)%Z -> is_value ($60 *. v) (60 * IZR e).
Proof.
  intros [F V] B. change (@B2R 24 128) with fval in V. destruct (fz_val o 60) as [F6 V6]; [sm|].
  assert (-10 <= IZR e <= 10) by (split; [apply (IZR_le (-10))|apply (IZR_le _ 10)]; lia).
  destruct (Bmult_ok $60 v (-600) 600 F6 F) as [Fm Vm]; try sm; [rewrite V6, V; lra|]. split; [exact Fm|]. rewrite V6, V, <- mult_IZR, rnd32_int, mult_IZR in Vm by (unfold F32Facts.small; lia). exact Vm.
Qed.
Lemma norm_whole (v : f32) (i e : Z) : is_value v (60 * IZR e) -> (0 <= i <= 5)%Z -> (e = i \/ e = i - 6)%Z -> is_value (@hue_norm f32 (F32 o) v) (60 * IZR i).
Proof.
  intros [F V] Bi C. change (@B2R 24 128) with fval in V. destruct (hue_norm32 o v F) as [k [m [Ev [Bm [[Fh Vh] _]]]]]. split; [exact Fh|]. rewrite Vh.
  assert (K : m = 60 * IZR i).
  { assert (Ri : 0 <= IZR i <= 5) by (split; [apply (IZR_le 0)|apply (IZR_le _ 5)]; lia). rewrite V in Ev. destruct C as [-> | ->].
    - assert (k = 0)%Z by (assert (-1 < k < 1)%Z by (split; apply lt_IZR; lra); lia). subst k. lra.
    - rewrite minus_IZR in Ev. assert (k = -1)%Z by (assert (-2 < k < 0)%Z by (split; apply lt_IZR; lra); lia). subst k. lra. }
  rewrite K, <- mult_IZR, rnd32_int by (unfold F32Facts.small; lia). apply Rmin_left, IZR_le. lia.
Qed.
Lemma hue_exact (r g b mx mn : f32) x y z (i : Z) : fin r -> fin g -> fin b -> fin mx -> fin mn -> is_byte x -> is_byte y -> is_byte z ->
  fval r = q255 x -> fval g = q255 y -> fval b = q255 z -> fval mx = q255 (zmax x y z) -> fval mn = q255 (zmin x y z) -> zmin x y z <> zmax x y z ->
  hexagon_hue (IZR x) (IZR y) (IZR z) = 60 * IZR i -> (0 <= i <= 5)%Z ->
  fval (@hue_norm f32 (F32 o) (@hue_from_rgb_helper f32 (F32 o) r g b mx mn (mx -. mn))) = 60 * IZR i.
Proof.
  intros Fr Fg Fb Fx Fn Bx By Bz Vr Vg Vb Vx Vn NE E Bi.
  assert (BX : is_byte (zmax x y z)) by (apply byte_max; auto using byte_max). assert (BN : is_byte (zmin x y z)) by (apply byte_min; auto using byte_min).
  assert (L : (zmin x y z < zmax x y z)%Z) by (unfold zmin, zmax in *; lia).
  assert (M : forall p q P Q a, fin p -> fin q -> fval p = q255 P -> fval q = q255 Q -> (P = x \/ P = y \/ P = z) -> (Q = x \/ Q = y \/ Q = z) ->
    60 * (IZR a + (IZR P - IZR Q) / (IZR (zmax x y z) - IZR (zmin x y z))) = 60 * IZR i ->
    exists e, (i = a + e)%Z /\ (-1 <= e <= 1)%Z /\ ((e < 0)%Z <-> (P < Q)%Z) /\ is_value ((p -. q) /. (mx -. mn)) (IZR e)).
  { intros p q P Q a Fp Fq Vp Vq HP HQ K. assert (R1 : IZR (zmax x y z) - IZR (zmin x y z) <> 0) by (rewrite <- minus_IZR; apply not_0_IZR; lia).
    assert (K' : IZR (P - Q) = IZR ((i - a) * (zmax x y z - zmin x y z))).
    { rewrite mult_IZR, !minus_IZR. apply Rmult_eq_reg_l in K; [|lra]. rewrite <- K. field. exact R1. }
    apply eq_IZR in K'. exists (i - a)%Z.
    assert (PP : (zmin x y z <= P <= zmax x y z)%Z) by (unfold zmin, zmax; destruct HP as [->|[->| ->]]; lia).
    assert (QQ : (zmin x y z <= Q <= zmax x y z)%Z) by (unfold zmin, zmax; destruct HQ as [->|[->| ->]]; lia).
    assert (BP : is_byte P) by (destruct HP as [->|[->| ->]]; assumption). assert (BQ : is_byte Q) by (destruct HQ as [->|[->| ->]]; assumption).
    set (X := zmax x y z) in * . set (N := zmin x y z) in * . clearbody X N. set (e := (i - a)%Z) in * .
    assert (He : (-1 <= e <= 1)%Z) by nia. split; [unfold e; lia|]. split; [exact He|]. clearbody e.
    assert (C : (e = 0 /\ P = Q \/ e = 1 /\ P = X /\ Q = N \/ e = -1 /\ P = N /\ Q = X)%Z) by (assert (D : (e = -1 \/ e = 0 \/ e = 1)%Z) by lia; destruct D as [-> | [-> | ->]]; lia).
    split; [lia|]. apply (quot_exact p q mx mn P Q X N e); assumption. }
  pose proof (hue_rise IZR x y z rise_IZR Bx By Bz NE) as HR. unfold hue_case in HR. unfold hue_from_rgb_helper.
  assert (EQ : forall v P, fin v -> is_byte P -> fval v = q255 P -> @feq f32 (F32 o) mx v = (P =? zmax x y z)%Z).
  { intros v P Fv BP Vv. destruct (Z.eqb_spec P (zmax x y z)) as [->|D]; [apply eq_val; auto; congruence|]. apply ne_val; auto. rewrite Vx, Vv. intros K. apply D. symmetry.
    apply (rise_eq q255 (zmax x y z) P rise_q255); auto. }
  rewrite (EQ r x), (EQ g y) by assumption.
  destruct (x =? zmax x y z)%Z; [|destruct (y =? zmax x y z)%Z].
  - assert (HC : exists a e, (i = a + e)%Z /\ (-1 <= e <= 1)%Z /\ (a = 0 \/ a = 6)%Z /\ is_value ((g -. b) /. (mx -. mn)) (IZR e)).
    { destruct (y <? z)%Z; rewrite E in HR; symmetry in HR; destruct (M g b y z _ Fg Fb Vg Vb ltac:(auto) ltac:(auto) HR) as [e [Ei [Be [_ Ve]]]]; eexists; exists e; repeat (split; [eassumption|]); (split; [|exact Ve]); auto. }
    destruct HC as [a [e [Ei [Be [Ha Ve]]]]].
    assert (Vf : is_value (@ffmod f32 (F32 o) ((g -. b) /. (mx -. mn)) $6) (IZR e)).
    { destruct Ve as [Fe Ve]. change (@B2R 24 128) with fval in Ve. destruct (fmod_inside o ((g -. b) /. (mx -. mn)) 6 (fval ((g -. b) /. (mx -. mn))) 0 (near_self _ Fe)) as [[Ff _] Vf]; [lia| |].
      - rewrite Ve. split; [apply (IZR_lt (-6))|apply (IZR_lt _ 6)]; lia.
      - split; [exact Ff|]. change (@B2R 24 128) with fval. rewrite Vf. exact Ve. }
    refine (proj2 (norm_whole _ i e (sixty _ e Vf ltac:(lia)) Bi _)). lia.
  - rewrite E in HR. symmetry in HR. destruct (M b r z x 2%Z Fb Fr Vb Vr ltac:(auto) ltac:(auto) HR) as [e [Ei [Be [_ [Fe Ve]]]]]. change (@B2R 24 128) with fval in Ve.
    assert (Vf : is_value ((b -. r) /. (mx -. mn) +. $2) (IZR i)).
    { destruct (fz_val o 2) as [F2 V2]; [sm|]. assert (-1 <= IZR e <= 1) by (split; [apply (IZR_le (-1))|apply (IZR_le _ 1)]; lia).
      destruct (Bplus_ok ((b -. r) /. (mx -. mn)) $2 0 10 Fe F2) as [Fs Vs]; try sm; [rewrite Ve, V2; lra|]. split; [exact Fs|]. rewrite Ve, V2, <- plus_IZR, rnd32_int in Vs by (unfold F32Facts.small; lia).
      replace i with (e + 2)%Z by lia. exact Vs. }
    refine (proj2 (norm_whole _ i i (sixty _ i Vf ltac:(lia)) Bi _)). lia.
  - rewrite E in HR. symmetry in HR. destruct (M r g x y 4%Z Fr Fg Vr Vg ltac:(auto) ltac:(auto) HR) as [e [Ei [Be [_ [Fe Ve]]]]]. change (@B2R 24 128) with fval in Ve.
    assert (Vf : is_value ((r -. g) /. (mx -. mn) +. $4) (IZR i)).
    { destruct (fz_val o 4) as [F2 V2]; [sm|]. assert (-1 <= IZR e <= 1) by (split; [apply (IZR_le (-1))|apply (IZR_le _ 1)]; lia).
      destruct (Bplus_ok ((r -. g) /. (mx -. mn)) $4 0 10 Fe F2) as [Fs Vs]; try sm; [rewrite Ve, V2; lra|]. split; [exact Fs|]. rewrite Ve, V2, <- plus_IZR, rnd32_int in Vs by (unfold F32Facts.small; lia).
      replace i with (e + 4)%Z by lia. exact Vs. }
    refine (proj2 (norm_whole _ i i (sixty _ i Vf ltac:(lia)) Bi _)). lia.
Qed.

(** ** Turning a deep colour whose channels are whole bytes *)
Lemma turn_bytes t : is_bytes t -> is_bytes (byte_turn t) /\ reals (byte_turn t) = turn (reals t).
Proof.
  destruct t as [[r g] b]. intros [Hr [Hg Hb]]. cbn -[Z.max Z.min]. unfold is_byte in * . split; [lia|].
  rewrite (rise_largest IZR), (rise_smallest IZR) by (auto using rise_IZR; unfold is_byte; lia). unfold zmax, zmin. rewrite !minus_IZR, !plus_IZR. reflexivity.
Qed.
Lemma turns_bytes j t : is_bytes t -> is_bytes (byte_turns j t) /\ reals (byte_turns j t) = turns j (reals t).
Proof.
  intros B. induction j as [|j [B' E]]; [split; [exact B|reflexivity]|].
  change (byte_turns (Datatypes.S j) t) with (byte_turn (byte_turns j t)). change (turns (Datatypes.S j) (reals t)) with (turn (turns j (reals t))). rewrite <- E. apply turn_bytes, B'.
Qed.

Definition close3 (d : color f32) (p : R * R * R) : Prop := let '(r, g, b) := p in
  exists x y z, comps d = [x; y; z] /\ near x (r / 255) (2600 * u) /\ near y (g / 255) (2600 * u) /\ near z (b / 255) (2600 * u).
Lemma deep_turn (c : color f32) (r g b w : f32) x y z (j : Z) : @wf_color f32 (F32 o) RGB_DEEP c -> comps c = [r; g; b] -> is_byte x -> is_byte y -> is_byte z ->
  fval r = q255 x -> fval g = q255 y -> fval b = q255 z -> fin w -> fval w = 60 * IZR j -> (1 <= j <= 5)%Z ->
  ~ in_last_degree (IZR x, IZR y, IZR z) -> forall t, t = turns (Z.to_nat j) (IZR x, IZR y, IZR z) -> ~ in_last_degree t ->
  exists hx sx lx a1 a2 a3 sp, @rgb_deep_to_hsl_f f32 (F32 o) c = Ok (Color HSL HSL [hx; sx; lx] a1 a2 a3 sp) /\
  forall v : color f32, comps v = [@hue_norm f32 (F32 o) (hx +. w); @c01 f32 (F32 o) sx; @c01 f32 (F32 o) lx] -> exists d, @hsl_to_rgb_deep_f f32 (F32 o) v = Ok d /\ close3 d t.
Proof.
  intros W Ec Bx By Bz Vr Vg Vb Fw Vw Hj N t Et Nt.
  assert (BX : is_byte (zmax x y z)) by (apply byte_max; auto using byte_max). assert (BN : is_byte (zmin x y z)) by (apply byte_min; auto using byte_min).
  destruct (chan o c r g b W Ec) as [[Fr _] [[Fg _] [Fb _]]]. destruct (chan_mx o c r g b W Ec) as [Fx Vx]. destruct (chan_mn o c r g b W Ec) as [Fn Vn].
  set (mx := @fmax f32 (F32 o) (@fmax f32 (F32 o) r g) b) in * . set (mn := @fmin f32 (F32 o) (@fmin f32 (F32 o) r g) b) in * .
  assert (EX : mx3 (fval r) (fval g) (fval b) = q255 (zmax x y z)) by (rewrite Vr, Vg, Vb, <- largest_mx; apply rise_largest; auto using rise_q255).
  assert (EN : mn3 (fval r) (fval g) (fval b) = q255 (zmin x y z)) by (rewrite Vr, Vg, Vb, <- smallest_mn; apply rise_smallest; auto using rise_q255).
  destruct (as_point _ _ _ N) as [t0 [m [D [EP [Bt [BD [Eh [Em EM]]]]]]]]. rewrite rise_smallest in Em by auto using rise_IZR. rewrite rise_largest in EM by auto using rise_IZR.
  destruct (turns_point (Z.to_nat j) t0 m D ltac:(lra) BD) as [ET [BT [k ET']]]. rewrite <- EP, <- Et in ET. set (T := Nat.iter (Z.to_nat j) next t0) in * . clearbody T.
  rewrite INR_IZR_INZ, Z2Nat.id in ET' by lia.
  destruct (q255_near _ BX) as [QX UX]. destruct (q255_near _ BN) as [QN UN]. pose proof (Rabs_le_inv _ _ QX) as QX'. pose proof (Rabs_le_inv _ _ QN) as QN'. rewrite <- EM in QX'. rewrite <- Em in QN'.
  assert (VL : forall (v : color f32) (hf sf lf : f32), comps v = [hf; sf; lf] -> fin lf -> (fval lf = 0 -> D = 0 /\ m = 0) -> (fval lf <> 0 -> exists H S L e, near hf H (74000 * u) /\ 0 <= fval hf <= 359 /\ 0 <= H <= 359 /\
    near sf S e /\ 0 <= e <= 1 /\ Rmin L (1 - L) * e <= 8 * u /\ near lf L (21 / 10 * u) /\ 0 <= S <= 1 /\ 0 <= L <= 1 /\
    (let '(tr, tg, tb) := t in Rabs (L - S * Rmin L (1 - L) * (1 - 2 * ur (H / 60)) - tr / 255) <= 2 * u /\ Rabs (L - S * Rmin L (1 - L) * (1 - 2 * ug (H / 60)) - tg / 255) <= 2 * u /\
      Rabs (L - S * Rmin L (1 - L) * (1 - 2 * ub (H / 60)) - tb / 255) <= 2 * u /\ 0 <= tr / 255 <= 1 /\ 0 <= tg / 255 <= 1 /\ 0 <= tb / 255 <= 1)) ->
    exists d, @hsl_to_rgb_deep_f f32 (F32 o) v = Ok d /\ close3 d t).
  { intros v hf sf lf Ev Fl Z0 K. destruct (fz_val o 0) as [F0 V0]; [sm|]. unfold hsl_to_rgb_deep_f, with3. rewrite Ev. destruct (Req_dec (fval lf) 0) as [Z|Z].
    - rewrite (eq_val o lf $0) by (auto; rewrite V0; exact Z). rewrite rgb_deepcolor1_nf. eexists. split; [reflexivity|]. destruct (Z0 Z) as [ZD ZM]. rewrite ET. unfold close3, point. rewrite ZD, ZM.
      destruct (c01_val o $0 F0) as [Fc Vc]; [rewrite V0; lra|]. rewrite V0 in Vc.
      do 3 eexists. split; [reflexivity|]. split; [|split]; (split; [exact Fc|]; rewrite Vc; apply Rabs_le; num).
    - rewrite (ne_val o lf $0) by (auto; rewrite V0; exact Z). rewrite rgb_deepcolor_nf. eexists. split; [reflexivity|]. destruct (K Z) as [H [S [L [e [Nh [Bh [BH [Ns [He [HM [Nl [BS [BL KK]]]]]]]]]]]]].
      destruct t as [[tr tg] tb]. destruct KK as [K1 [K2 [K3 [B1 [B2 B3]]]]]. destruct (hsl_of_unit H S L ltac:(lra)) as [H1 [H2 H3]]. cbv zeta in H1, H2, H3. rewrite <- H1 in K1. rewrite <- H2 in K2. rewrite <- H3 in K3.
      unfold close3. cbn [comps]. do 3 eexists. split; [reflexivity|]. split; [|split]; (apply near_01; [|num|assumption]).
      + eapply near_weaken; [eapply near_move; [apply (helper_close o hf sf lf H S L e (74000 * u) 0); auto; num|exact K1]|num].
      + eapply near_weaken; [eapply near_move; [apply (helper_close o hf sf lf H S L e (74000 * u) 8); auto; num|exact K2]|num].
      + eapply near_weaken; [eapply near_move; [apply (helper_close o hf sf lf H S L e (74000 * u) 4); auto; num|exact K3]|num]. }
  assert (Bm : 0 <= m /\ m + D <= 255). { rewrite Em in * . rewrite EM. split; [apply (IZR_le 0)|apply (IZR_le _ 255)]; [apply BN|apply BX]. }
  assert (RG : forall q, 0 <= q <= 1 -> 0 <= (m + D * q) / 255 <= 1).
  { intros q Hq. assert (0 <= D * q <= D) by (split; [apply Rmult_le_pos; lra|rewrite <- (Rmult_1_r D) at 2; apply Rmult_le_compat_l; lra]). lra. }
  destruct (Z.eq_dec (zmin x y z) (zmax x y z)) as [E|E].
  - assert (D0 : D = 0) by (rewrite <- E in EM; lra). destruct (c01_val o mn Fn) as [Fc Vc]; [rewrite Vn, EN; lra|]. destruct (fz_val o 0) as [F0 V0]; [sm|].
    do 7 eexists. split.
    + unfold rgb_deep_to_hsl_f, with3. rewrite Ec. cbv zeta. fold mx mn. rewrite (eq_val o mx mn) by (auto; rewrite Vx, Vn, EX, EN, E; reflexivity). rewrite hsl_nf. reflexivity.
    + intros v Ev. destruct (c01_val o (@c01 f32 (F32 o) mn) Fc) as [Fc2 Vc2]; [rewrite Vc, Vn, EN; lra|]. eapply VL; [exact Ev|exact Fc2| |].
      * intros Z. split; [exact D0|]. rewrite Vc2, Vc, Vn, EN in Z. rewrite Em. destruct (Z.eq_dec (zmin x y z) 0) as [->|NZ]; [reflexivity|]. exfalso.
        assert (1 <= IZR (zmin x y z)) by (apply (IZR_le 1); destruct BN; lia). rewrite Em in QN'. num.
      * intros _. destruct (c01_val o $0 F0) as [G1 G2]; [rewrite V0; lra|]. destruct (c01_val o (@c01 f32 (F32 o) $0) G1) as [G3 G4]; [rewrite G2, V0; lra|].
        destruct (hue_unit32 o (@hue_norm f32 (F32 o) $0 +. w)) as [Fh Bh].
        exists (fval (@hue_norm f32 (F32 o) (@hue_norm f32 (F32 o) $0 +. w))), 0, (q255 (zmin x y z)), 0.
        split; [eapply near_weaken; [apply near_self, Fh|num]|]. split; [exact Bh|]. split; [exact Bh|]. split; [split; [exact G3|]; rewrite G4, G2, V0, Rminus_diag_eq, Rabs_R0 by reflexivity; lra|].
        split; [lra|]. split; [num|]. split; [split; [exact Fc2|]; rewrite Vc2, Vc, Vn, EN, Rminus_diag_eq, Rabs_R0 by reflexivity; num|]. split; [lra|]. rewrite ET. unfold point. rewrite D0. split; [lra|]. split; [apply Rabs_le; num|]. split; [apply Rabs_le; num|].
        split; [apply Rabs_le; num|]. lra.
  - pose proof (rise_q255 _ _ BN BX ltac:(unfold zmin, zmax in *; lia)) as RQ.
    assert (NE3 : mx3 (fval r) (fval g) (fval b) <> mn3 (fval r) (fval g) (fval b)) by (rewrite EX, EN; lra).
    destruct (chan_hue o c r g b W Ec NE3) as [NH BH]. fold mx mn in NH. set (hx := @hue_norm f32 (F32 o) (@hue_from_rgb_helper f32 (F32 o) r g b mx mn (mx -. mn))) in * .
    assert (L1 : IZR (zmin x y z) + 1 <= IZR (zmax x y z)) by (rewrite <- plus_IZR; apply IZR_le; unfold zmin, zmax in *; lia).
    assert (D1 : 1 <= D) by lra.
    assert (BTT : T <= 359 / 60). { apply Rnot_lt_le. intros C. apply Nt. rewrite ET. apply last_point; lra. }
    assert (NH' : near hx (60 * t0) (72900 * u)).
    { eapply near_weaken; [eapply near_move; [exact NH|]|]; [|instantiate (1 := 72000 * u); lra]. unfold hueR. rewrite (hue_published _ _ _ NE3), Vr, Vg, Vb.
      pose proof (hue_move x y z Bx By Bz E) as HM. rewrite <- Eh in HM. apply Rabs_le_inv in HM. apply Rabs_le. unfold Rmin. destruct (Rle_dec _ _); lra. }
    assert (NT : near (@hue_norm f32 (F32 o) (hx +. w)) (60 * T) (74000 * u)).
    { eapply near_weaken; [apply (near_turn o hx w (60 * t0) (72900 * u) j k (60 * T) NH')|]; auto; try lra; try num.
      - rewrite Eh. apply hue_grid; auto.
      - intros i Hi. rewrite Hi. apply (hue_exact r g b mx mn x y z i); auto; try (rewrite Vx; exact EX); try (rewrite Vn; exact EN); [rewrite <- Eh; exact Hi|].
        assert (-1 < i < 6)%Z; [|lia]. split; apply lt_IZR; lra. }
    destruct (Error5_Proofs.lightness o c r g b W Ec) as [NL BL]. fold mx mn in NL. pose proof (sat_close o c r g b W Ec) as SC. cbv zeta in SC. fold mx mn in SC.
    rewrite EX, EN in NL, BL, SC. set (L := (q255 (zmax x y z) + q255 (zmin x y z)) / 2) in * .
    set (lf := @lit f32 (F32 o) (1 # 2) *. (mx +. mn)) in * .
    set (sat := if @feq f32 (F32 o) lf $0 || @feq f32 (F32 o) lf $1 then $0 else (mx -. mn) /. ($1 -. @fabs f32 (F32 o) ($2 *. lf -. $1))) in * .
    assert (LM : 32 * u < Rmin L (1 - L)) by (apply Rmin_glb_lt; unfold L; num).
    destruct (SC LM) as [S [e [NS [He [HM [BS SM]]]]]].
    do 7 eexists. split.
    + unfold rgb_deep_to_hsl_f, with3. rewrite Ec. cbv zeta. fold mx mn. rewrite (ne_val o mx mn) by (auto; rewrite Vx, Vn; exact NE3). rewrite hsl_nf. reflexivity.
    + fold hx lf sat. intros v Ev.
      assert (NC : near (@c01 f32 (F32 o) (@c01 f32 (F32 o) lf)) L (21 / 10 * u)) by (apply near_01; [apply near_01; [exact NL|num|exact BL]|num|exact BL]).
      pose proof (near_range _ _ _ NC) as RC.
      eapply VL; [exact Ev|exact (proj1 NC)| |].
      * intros Z. rewrite Z in RC. unfold L in RC. exfalso. num.
      * intros _. exists (60 * T), S, L, e. split; [exact NT|]. split; [apply hue_unit32|]. split; [lra|]. split; [apply near_01; [exact NS|lra|exact BS]|]. split; [exact He|]. split; [exact HM|].
        split; [exact NC|]. split; [exact BS|]. split; [exact BL|]. rewrite ET. unfold point. rewrite SM. replace (60 * T / 60) with T by field. destruct (unit_bounds T) as [U1 [U2 U3]].
        assert (ZZ : forall q, 0 <= q <= 1 -> Rabs (L - (q255 (zmax x y z) - q255 (zmin x y z)) / 2 * (1 - 2 * q) - (m + D * q) / 255) <= 2 * u).
        { intros q Hq. replace (L - (q255 (zmax x y z) - q255 (zmin x y z)) / 2 * (1 - 2 * q) - (m + D * q) / 255) with
            ((q255 (zmin x y z) - m / 255) * (1 - q) + (q255 (zmax x y z) - (m + D) / 255) * q) by (unfold L; field).
          assert (A1 : - (11 / 10 * u * (1 - q)) <= (q255 (zmin x y z) - m / 255) * (1 - q) <= 11 / 10 * u * (1 - q)).
          { rewrite <- Ropp_mult_distr_l_reverse. split; apply Rmult_le_compat_r; lra. }
          assert (A2 : - (11 / 10 * u * q) <= (q255 (zmax x y z) - (m + D) / 255) * q <= 11 / 10 * u * q).
          { rewrite <- Ropp_mult_distr_l_reverse. split; apply Rmult_le_compat_r; lra. }
          apply Rabs_le. num. }
        split; [apply ZZ, U1|]. split; [apply ZZ, U2|]. split; [apply ZZ, U3|]. split; [apply RG, U1|]. split; [apply RG, U2|apply RG, U3].
Qed.

(** ** Schemes *)
Lemma step_value n k : In n [2; 3; 6]%Z -> (0 < k < n)%Z -> is_value (@fofZ f32 (F32 o) k *. ($360 /. @fofZ f32 (F32 o) n)) (60 * IZR (k * (6 / n))).
Proof.
  intros Hn Hk. change (@fofZ f32 (F32 o)) with (fun i => normalize i 0 false). cbv beta.
  assert (Dv : (0 < n /\ n * (60 * (6 / n)) = 360 /\ 1 <= 6 / n <= 3 /\ n <= 6)%Z) by (destruct Hn as [<-|[<-|[<-|[]]]]; cbv; intuition discriminate).
  destruct Dv as [P [Dv [B6 B7]]]. destruct (fz_val o 360) as [F3 V3]; [sm|]. destruct (ofZ32 n) as [Fn Vn]; [unfold F32Facts.small; lia|]. destruct (ofZ32 k) as [Fk Vk]; [unfold F32Facts.small; lia|].
  assert (Q : fval $360 / fval (normalize n 0 false) = IZR (60 * (6 / n))).
  { rewrite V3, Vn. apply (f_equal IZR) in Dv. rewrite mult_IZR in Dv. rewrite <- Dv. field. apply not_0_IZR. lia. }
  assert (B : 0 <= IZR (60 * (6 / n)) <= 180) by (split; [apply (IZR_le 0)|apply (IZR_le _ 180)]; lia).
  destruct (Bdiv_ok $360 (normalize n 0 false) 0 180 F3 Fn) as [Fq Vq]; try sm; [rewrite Vn; apply not_0_IZR; lia|rewrite Q; exact B|]. rewrite Q, rnd32_int in Vq by (unfold F32Facts.small; lia).
  change (@fdiv f32 (F32 o)) with (Bdiv mode_NE (prec := 24) (emax := 128)).
  assert (Bk : 0 <= IZR k <= 6) by (split; [apply (IZR_le 0)|apply (IZR_le _ 6)]; lia).
  assert (Bp : 0 <= IZR k * IZR (60 * (6 / n)) <= 2000). { split; [apply Rmult_le_pos; lra|]. apply Rle_trans with (6 * 180); [apply Rmult_le_compat; lra|lra]. }
  destruct (Bmult_ok (normalize k 0 false) (Bdiv mode_NE $360 (normalize n 0 false)) 0 2000 Fk Fq) as [Fm Vm]; try sm; [rewrite Vk, Vq; exact Bp|]. split; [exact Fm|]. change (@fmul f32 (F32 o)) with (Bmult mode_NE (prec := 24) (emax := 128)).
  change (@B2R 24 128) with fval. rewrite Vm, Vk, Vq, <- mult_IZR, rnd32_int by (rewrite <- mult_IZR in Bp; destruct Bp as [Bp1 Bp2]; apply le_IZR in Bp1, Bp2; unfold F32Facts.small; lia). rewrite <- mult_IZR. f_equal. ring.
Qed.
Lemma byte_close (v : f32) z : near v (IZR z / 255) (2600 * u) -> is_byte z -> is_value (@c255 f32 (F32 o) (@fround f32 (F32 o) (v *. $255))) (IZR z).
Proof.
  intros N B. destruct (to_byte o v (IZR z) (2600 * u) N) as [i [_ [V K]]]; [split; [apply (IZR_le 0)|apply (IZR_le _ 255)]; apply B|num|].
  rewrite (int_eq i z) in V; [exact V|]. eapply Rle_lt_trans; [exact K|num].
Qed.

Lemma scheme_bytes : forall n (h : heap f32) p c t, In n [2; 3; 6]%Z -> at_addr h p c -> @wf_color f32 (F32 o) RGB_TRUE c -> is_bytes t -> holds_bytes t c -> ~ in_last_degree (reals t) ->
  exists qs h', @create_combination f32 (F32 o) (Some p) n h = (Ok (Some p :: map Some qs), h') /\ length qs = Z.to_nat (n - 1) /\
  forall k q, nth_error qs k = Some q -> forall t', t' = byte_turns (Datatypes.S k * Z.to_nat (6 / n)) t -> ~ in_last_degree (reals t') ->
    exists d, at_addr h' q d /\ @wf_color f32 (F32 o) RGB_TRUE d /\ holds_bytes t' d /\ rgb_space d = rgb_space c.
Proof.
  intros n h p c t Hn A W Bt Ht N.
  destruct (@combination_ok f32 (F32 o) (F32Laws o) _ RGB_TRUE n h p c ltac:(destruct Hn as [<-|[<-|[<-|[]]]]; lia) A W eq_refl ltac:(discriminate)) as [a [d [h1 [xx [yy [zz [qs [h' [Ea [Aa [Wd [Ed [_ [E [L [U [ND K]]]]]]]]]]]]]]]]].
  exists qs, h'. split; [exact E|]. split; [exact L|]. intros k q Hq t' Et Nt.
  assert (Hk : (S k < Z.to_nat n)%nat) by (assert (k < length qs)%nat by (apply nth_error_Some; congruence); rewrite L in *; lia).
  destruct (K k q Hq) as [_ [v' [v [Ar [Wr [Sr [G [CF [Wv _]]]]]]]]]. exists v'. split; [exact Ar|]. split; [exact Wr|]. split; [|exact Sr].
  destruct t as [[x y] z]. destruct Bt as [Bx [By Bz]]. destruct Ht as [_ [Cx [Cy Cz]]].
  destruct (turns_bytes (S k * Z.to_nat (6 / n)) (x, y, z) (conj Bx (conj By Bz))) as [Bt' ER]. rewrite <- Et in Bt', ER.
  destruct (comps3 c (wf_len _ _ W)) as [cx [cy [cz Ec]]].
  destruct Cx as [x' [Ex Vx]]. destruct Cy as [y' [Ey Vy]]. destruct Cz as [z' [Ez Vz]].
  rewrite Ec in Ex, Ey, Ez. cbn [nth_error] in Ex, Ey, Ez. injection Ex as <-. injection Ey as <-. injection Ez as <-.
  assert (E1 : exists c1, @rgb_true_to_rgb_deep_f f32 (F32 o) c = Ok c1 /\ comps c1 = [@c01 f32 (F32 o) (cx /. $255); @c01 f32 (F32 o) (cy /. $255); @c01 f32 (F32 o) (cz /. $255)]).
  { unfold rgb_true_to_rgb_deep_f, with3. rewrite Ec, rgb_deepcolor_nf. eexists. split; reflexivity. }
  destruct E1 as [c1 [E1 C1]]. pose proof (@rgb_true_to_rgb_deep_ok f32 (F32 o) _ _) as L1.
  assert (W1 : @wf_color f32 (F32 o) RGB_DEEP c1) by (destruct (L1 c W) as [m' [E0 [Wm _]]]; congruence).
  set (j := (Z.of_nat (S k) * (6 / n))%Z).
  assert (Hj : (1 <= j <= 5)%Z) by (unfold j; destruct Hn as [<-|[<-|[<-|[]]]]; [change (6 / 2)%Z with 3%Z|change (6 / 3)%Z with 2%Z|change (6 / 6)%Z with 1%Z]; cbn in Hk; lia).
  destruct (step_value n (Z.of_nat (S k)) Hn ltac:(lia)) as [Fw Vw]. fold j in Vw. change (@B2R 24 128) with fval in Vw.
  set (w := @fofZ f32 (F32 o) (Z.of_nat (S k)) *. ($360 /. @fofZ f32 (F32 o) n)) in * .
  assert (EJ : Z.to_nat j = (S k * Z.to_nat (6 / n))%nat) by (unfold j; rewrite Z2Nat.inj_mul, Nat2Z.id by (try lia; apply Z.div_pos; destruct Hn as [<-|[<-|[<-|[]]]]; lia); reflexivity).
  rewrite <- EJ in ER. unfold reals in N. unfold reals at 2 in ER.
  destruct (deep_turn c1 _ _ _ w x y z j W1 C1 Bx By Bz (proj2 (byte_q o cx x Bx Vx)) (proj2 (byte_q o cy y By Vy)) (proj2 (byte_q o cz z Bz Vz)) Fw Vw Hj N (reals t') ER Nt)
    as [hx [sx [lx [a1 [a2 [a3 [sp [E2 TT]]]]]]]].
  assert (D1 : dispatches (@to_hsl f32 (F32 o)) RGB_TRUE (two RGB_TRUE (@rgb_true_to_rgb_deep_f f32 (F32 o)) RGB_DEEP (@rgb_deep_to_hsl_f f32 (F32 o)))) by disp.
  change (convertTo (Some p) HSL h) with (@to_hsl f32 (F32 o) (Some p) h) in Ea. rewrite (D1 h p c A (wf_ty _ _ W)) in Ea.
  rewrite (@two_run f32 (F32 o) RGB_TRUE _ RGB_DEEP _ h p c c1 _ A W L1 E1 E2) in Ea. injection Ea as <- <-.
  assert (EQ : d = Color HSL HSL [hx; sx; lx] a1 a2 a3 sp).
  { pose proof (eq_trans (eq_sym Aa) (at_new (pushed h c1) (Color HSL HSL [hx; sx; lx] a1 a2 a3 sp) (spaces (pushed h c1)))) as Q. injection Q as Q. exact Q. }
  rewrite EQ in Ed. cbn [comps] in Ed. injection Ed as <- <- <-. rewrite hsl_nf in G. assert (G0 : forall (a b : color f32), Ok a = Ok b -> a = b) by (intros ? ? Q; congruence). apply G0 in G. fold w in G.
  destruct (TT v) as [dd [E3 Cl]]; [rewrite <- G; reflexivity|].
  destruct CF as [p1 [h2 [h3 [_ [_ [A1 [EC U1]]]]]]].
  assert (D2 : dispatches (@to_rgb_true f32 (F32 o)) HSL (two HSL (@hsl_to_rgb_deep_f f32 (F32 o)) RGB_DEEP (@rgb_deep_to_rgb_true_f f32 (F32 o)))) by disp.
  change (convertTo (Some p1) RGB_TRUE h2) with (@to_rgb_true f32 (F32 o) (Some p1) h2) in EC. rewrite (D2 h2 p1 v A1 (wf_ty _ _ Wv)) in EC.
  destruct t' as [[tx ty'] tz]. destruct Bt' as [Bx' [By' Bz']]. destruct Cl as [X [Y [Z0 [CC [N1 [N2 N3]]]]]].
  assert (E4 : exists rr, @rgb_deep_to_rgb_true_f f32 (F32 o) dd = Ok rr /\ has_bytes tx ty' tz rr).
  { unfold rgb_deep_to_rgb_true_f, with3. rewrite CC, rgb_truecolor_nf. eexists. split; [reflexivity|]. split; [reflexivity|].
    split; [|split]; (eexists; split; [reflexivity|]; apply byte_close; assumption). }
  destruct E4 as [rr [E4 HB]].
  rewrite (@two_run f32 (F32 o) HSL _ RGB_DEEP _ h2 p1 v dd rr A1 Wv (@hsl_to_rgb_deep_ok f32 (F32 o) _) E3 E4) in EC. injection EC as <- <-.
  pose proof (eq_trans (eq_sym Ar) (proj2 U1 _ _ (at_new (pushed h2 dd) rr (spaces (pushed h2 dd))))) as Q. injection Q as ->. exact HB.
Qed.
End E.
