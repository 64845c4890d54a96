(** * 8-bit colours of the RGB presets, to XYZ and back in binary32 (C153 - C155) *)
From Coq Require Import ZArith QArith Qreals Reals Lra Lia List Bool.
From Flocq Require Import Core IEEE754.BinarySingleNaN.
From Verif Require Import Arith Outcome ColorModel GammaModel MatrixModel SpaceModel Heap Converter F32 F32Facts RArith
  Spec Spec32 Laws NormalForms Alpha8 Core_Proofs Core2_Proofs Core3_Proofs Core4_Proofs Hue32 Spec_Matrix Spec_Conv Spec_Round
  Conv_Proofs Conv2_Proofs Run_Proofs HueR_Proofs Round_Proofs Round2_Proofs Spec_Error Error_Proofs Error2_Proofs Error3_Proofs Error4_Proofs
  Error7_Proofs Error8_Proofs Linear_Proofs Linear2_Proofs Pow_Proofs Curve_Proofs.
Import ListNotations.
Local Open Scope R_scope.
Local Notation fin x := (is_finite x = true).

Section Xyz.
Context (o : oracle).
Local Notation "x *. y" := (@fmul f32 (F32 o) x y) (at level 40, left associativity).
Local Notation "x /. y" := (@fdiv f32 (F32 o) x y) (at level 40, left associativity).
Local Notation "$ n" := (fz (H := F32 o) n) (at level 2).
Local Notation c01 := (@c01 f32 (F32 o)).
Local Notation there g := (@inverse_gamma_correction f32 (F32 o) g).
Local Notation back g := (@gamma_correction f32 (F32 o) g).

(** whatever the matrices do to the channel value v, the result satisfies P *)
Definition lands (g : gamma f32) (v : f32) (P : f32 -> Prop) : Prop := forall L d, unitf L ->
  near L (fval (c01 (there g v))) d -> chan_err (26 * u) (16 * u) (c01 (there g v)) d -> P (c01 (back g L)).

Lemma c01x_unit x : unitf (@c01x f32 (F32 o) x).
Proof. unfold c01x. apply c01_unit. Qed.
Lemma e26_R : Q2R e26 = 26 * u. Proof. unfold Q2R, e26, u. cbn. lra. Qed.
Lemma z16_R : Q2R z16 = 16 * u. Proof. unfold Q2R, z16, u. cbn. lra. Qed.

(** what the two matrices and curves make of the channels x, y, z *)
Definition trip_to (s : space_def f32) (g : gamma f32) (x y z : f32) (Px Py Pz : f32 -> Prop) : Prop :=
  exists X Y V x1 y1 z1, @mulvec f32 (F32 o) (s_matrix s) [c01 (there g x); c01 (there g y); c01 (there g z)] = Ok [X; Y; V] /\
    @mulvec f32 (F32 o) (s_inverse s) [@c100 f32 (F32 o) X; @c100 f32 (F32 o) Y; @c100 f32 (F32 o) V] = Ok [x1; y1; z1] /\
    Px (c01 (back g (@c01x f32 (F32 o) x1))) /\ Py (c01 (back g (@c01x f32 (F32 o) y1))) /\ Pz (c01 (back g (@c01x f32 (F32 o) z1))).
Lemma lands_trip s g x y z Px Py Pz : space_ok e26 z16 s = true -> lands g x Px -> lands g y Py -> lands g z Pz -> trip_to s g x y z Px Py Pz.
Proof.
  intros OK Kx Ky Kz.
  destruct (space_trip o e26 z16 s (c01 (there g x)) (c01 (there g y)) (c01 (there g z)) OK (c01_unit o _) (c01_unit o _) (c01_unit o _))
    as [X [Y [V [x1 [y1 [z1 [M1 [M2 [[e1 [N1 E1]] [[e2 [N2 E2]] [e3 [N3 E3]]]]]]]]]]]].
  rewrite e26_R, z16_R in E1, E2, E3. exists X, Y, V, x1, y1, z1. split; [exact M1|]. split; [exact M2|].
  split; [apply (Kx _ e1); auto using c01x_unit|]. split; [apply (Ky _ e2); auto using c01x_unit|]. apply (Kz _ e3); auto using c01x_unit.
Qed.

(** What a deep colour leaves on the heap, and what comes back. *)
Lemma deep_there (h : heap f32) p c i s g x y z Px Py Pz : at_addr h p c -> @wf_color f32 (F32 o) RGB_DEEP c -> comps c = [x; y; z] ->
  rgb_space c = Some i -> nth_error (spaces h) i = Some s -> s_gamma s = Some g ->
  trip_to s g x y z Px Py Pz ->
  exists q m h1, @rgb_deep_to_xyz f32 (F32 o) (Some p) h = (Ok (Some q), h1) /\ at_addr h1 q m /\ @wf_color f32 (F32 o) XYZ m /\
    exists i2 d h2, @xyz_to_rgb_deep f32 (F32 o) (Some q) h1 = (Ok (Some i2), h2) /\ at_addr h2 i2 d /\ @wf_color f32 (F32 o) RGB_DEEP d /\
      m_alpha d = m_alpha c /\ rgb_space d = rgb_space c /\ 
      exists x' y' z', comps d = [x'; y'; z'] /\ Px x' /\ Py y' /\ Pz z'.
Proof.
  intros Hp W Ec Es Hs Hg [X [Y [V [x1 [y1 [z1 [M1 [M2 KK]]]]]]]].
  assert (Cc : comps (@corrected f32 (F32 o) (@inverse_gamma_correction f32 (F32 o) g) c) = [c01 (there g x); c01 (there g y); c01 (there g z)]).
  { unfold corrected, with_comps. cbn [comps]. rewrite Ec. cbn [map]. rewrite (wf_max _ _ W), (wf_min _ _ W). reflexivity. }
  pose (m := Color XYZ XYZ [@c100 f32 (F32 o) X; @c100 f32 (F32 o) Y; @c100 f32 (F32 o) V] (m_alpha c) $100 $0 (rgb_space c)).
  set (c' := @corrected f32 (F32 o) (@inverse_gamma_correction f32 (F32 o) g) c) in * .
  set (h1 := Heap (upd p c' (colors h) ++ [m]) (spaces h)).
  assert (Hm : at_addr h1 (length (colors h)) m).
  { unfold h1, at_addr. cbn [colors]. rewrite <- (upd_length p c' (colors h)).
    rewrite nth_error_app2 by lia. rewrite Nat.sub_diag. reflexivity. }
  assert (Wm : @wf_color f32 (F32 o) XYZ m).
  { destruct (xyz_made (AF := F32 o) X Y V (m_alpha c) (rgb_space c)) as [m' [E [Wm _]]].
    rewrite xyz_nf in E. apply Ok_inj in E. unfold m. rewrite E. exact Wm. }
  exists (length (colors h)), m, h1. split; [|split; [exact Hm|split; [exact Wm|]]].
  { apply (rgb_deep_to_xyz_run h p c i s g X Y V Hp W Es Hs Hg). fold c'. rewrite Cc. exact M1. }
  do 3 eexists. split; [apply (xyz_to_rgb_deep_run (AF := F32 o) h1 _ m i s g x1 y1 z1 Hm Wm Es Hs Hg M2)|].
  split; [apply at_new|].
  assert (Cd : @corrected f32 (F32 o) (@gamma_correction f32 (F32 o) g) (Color RGB_DEEP RGB_DEEP [@c01x f32 (F32 o) x1; @c01x f32 (F32 o) y1; @c01x f32 (F32 o) z1] (m_alpha m) $1 $0 (rgb_space m)) =
    Color RGB_DEEP RGB_DEEP [c01 (back g (@c01x f32 (F32 o) x1)); c01 (back g (@c01x f32 (F32 o) y1)); c01 (back g (@c01x f32 (F32 o) z1))] (m_alpha c) $1 $0 (rgb_space c)) by reflexivity.
  rewrite Cd. split.
  { destruct (rgb_deepcolor_made (AF := F32 o) (back g (@c01x f32 (F32 o) x1)) (back g (@c01x f32 (F32 o) y1)) (back g (@c01x f32 (F32 o) z1)) (m_alpha c) (rgb_space c)) as [d' [E [Wd _]]].
    rewrite rgb_deepcolor_nf in E. apply Ok_inj in E. rewrite E. exact Wd. }
  split; [reflexivity|]. split; [reflexivity|]. do 3 eexists. split; [reflexivity|exact KK].
Qed.

Lemma ctor_gamma rx ry gx gy bx by_ w g (s : space_def f32) : @space_ctor f32 (F32 o) rx ry gx gy bx by_ w g = Ok s -> s_gamma s = g.
Proof.
  unfold space_ctor. destruct w as [[? wp]|]; [|discriminate].
  destruct (@calculate_transformation_matrix f32 (F32 o) _ _ _ _) as [m| | |]; cbn [obind]; try discriminate.
  destruct (@invert f32 (F32 o) m) as [j| | |]; cbn [obind]; try discriminate. intros H. apply Ok_inj in H. rewrite <- H. reflexivity.
Qed.

(** ** Library calls *)
Definition near_to (x : f32) (k : R) (y : f32) : Prop := near y (fval x) k.
Lemma keeps_from A g v : curve_on o A g -> unitf v -> A (fval v) -> lands g v (near_to v keep_err).
Proof. intros K U C L d UL N E. apply (K v L d); assumption. Qed.
Lemma comp_unit (c : color f32) i x : @wf_color f32 (F32 o) RGB_DEEP c -> nth_error (comps c) i = Some x -> unitf x.
Proof.
  intros W E. assert (H : @Spec.within f32 (F32 o) 0 1 x) by exact (wf_range _ _ W i x E). apply within32 in H; [exact H|sm|sm].
Qed.

Lemma byte_gap n m : (0 <= n <= 255)%Z -> n = 0%Z \/ (m <= n)%Z -> (1 <= m <= 100)%Z -> gap (IZR m + 39 * IZR m / 10000) (q255 n).
Proof.
  intros Hn D Hm. destruct D as [->|NZ]; [left; unfold q255; replace (0 / 255) with 0 by lra; apply rnd32_0|right].
  destruct (q255_near n Hn) as [K _]. assert (IZR m <= IZR n) by (apply IZR_le; lia). assert (1 <= IZR m <= 100) by (split; apply IZR_le; lia). apply Rabs_le_inv in K. num.
Qed.

Section Call.
Variables (h : heap f32) (p : nat) (c : color f32) (i : nat) (s : space_def f32) (gm : gamma f32).
Hypothesis (Hp : at_addr h p c) (Es : rgb_space c = Some i) (Hs : nth_error (spaces h) i = Some s) (Hg : s_gamma s = Some gm)
  (OK : space_ok e26 z16 s = true).
Variable (A : R -> Prop).
Hypothesis (CK : curve_on o A gm).

Lemma deep_xyz x y z : @wf_color f32 (F32 o) RGB_DEEP c -> comps c = [x; y; z] -> unitf x -> unitf y -> unitf z -> A (fval x) -> A (fval y) -> A (fval z) ->
  via (@to_xyz f32 (F32 o)) (@to_rgb_deep f32 (F32 o)) h p (fun m d => ty m = XYZ /\ ty d = RGB_DEEP /\
    comp_sat d 0 (approx (B2R x) keep_err) /\ comp_sat d 1 (approx (B2R y) keep_err) /\ comp_sat d 2 (approx (B2R z) keep_err) /\
    m_alpha d = m_alpha c /\ rgb_space d = rgb_space c).
Proof.
  intros W Ec Ux Uy Uz Gx Gy Gz.
  destruct (deep_there h p c i s gm x y z (near_to x keep_err) (near_to y keep_err) (near_to z keep_err) Hp W Ec Es Hs Hg) as [q [m [h1 [E1 [Hm [Wm [j [d [h2 [E2 [Hd [Wd [Al [S [x' [y' [z' [Cd [Nx [Ny Nz]]]]]]]]]]]]]]]]]]]];
    try (apply (lands_trip s gm x y z _ _ _ OK); apply (keeps_from A); assumption).
  exists q, j, m, d, h1, h2.
  assert (D1 : dispatches (@to_xyz f32 (F32 o)) RGB_DEEP (@rgb_deep_to_xyz f32 (F32 o))) by disp.
  assert (D2 : dispatches (@to_rgb_deep f32 (F32 o)) XYZ (@xyz_to_rgb_deep f32 (F32 o))) by disp.
  split; [rewrite (D1 h p c Hp (wf_ty _ _ W)); exact E1|]. split; [exact Hm|]. split; [rewrite (D2 h1 q m Hm (wf_ty _ _ Wm)); exact E2|]. split; [exact Hd|].
  split; [apply (wf_ty _ _ Wm)|]. split; [apply (wf_ty _ _ Wd)|].
  split; [exists x'; split; [rewrite Cd; reflexivity|exact Nx]|]. split; [exists y'; split; [rewrite Cd; reflexivity|exact Ny]|].
  split; [exists z'; split; [rewrite Cd; reflexivity|exact Nz]|]. split; assumption.
Qed.

Definition to8 (x : f32) : f32 := @c255 f32 (F32 o) (@fround f32 (F32 o) (x *. $255)).
Lemma bytes_land r g b a Px Py Pz : @wf_color f32 (F32 o) RGB_TRUE c -> is_byte r -> is_byte g -> is_byte b -> is_byte a -> has_bytes r g b c -> is_value (@alpha f32 (F32 o) c) (IZR a) ->
  (forall x y z, unitf x -> fval x = q255 r -> unitf y -> fval y = q255 g -> unitf z -> fval z = q255 b -> trip_to s gm x y z Px Py Pz) ->
  via (@to_xyz f32 (F32 o)) (@to_rgb_true f32 (F32 o)) h p (fun m d => ty m = XYZ /\ ty d = RGB_TRUE /\ (exists x y z, comps d = [to8 x; to8 y; to8 z] /\ Px x /\ Py y /\ Pz z) /\
    is_value (@alpha f32 (F32 o) d) (IZR a) /\ rgb_space d = rgb_space c).
Proof.
  unfold is_byte. intros W Hr Hg' Hb Ha [_ [Cr [Cg Cb]]] Ca T.
  destruct (comps3 c (wf_len _ _ W)) as [x [y [z Ec]]].
  destruct Cr as [x' [Ex Vx]]. destruct Cg as [y' [Ey Vy]]. destruct Cb as [z' [Ez Vz]].
  rewrite Ec in Ex, Ey, Ez. cbn [nth_error] in Ex, Ey, Ez. injection Ex as <-. injection Ey as <-. injection Ez as <-.
  pose proof (@rgb_true_to_rgb_deep_ok f32 (F32 o) _ _) as L1.
  assert (E1 : exists c1, @rgb_true_to_rgb_deep_f f32 (F32 o) c = Ok c1 /\ comps c1 = [c01 (x /. $255); c01 (y /. $255); c01 (z /. $255)] /\
    m_alpha c1 = @alpha f32 (F32 o) c /. $255 /\ rgb_space c1 = rgb_space c).
  { unfold rgb_true_to_rgb_deep_f, with3. rewrite Ec, rgb_deepcolor_nf. eexists. repeat split; reflexivity. }
  destruct E1 as [c1 [E1 [C1 [A1 S1]]]].
  assert (W1 : @wf_color f32 (F32 o) RGB_DEEP c1) by (destruct (L1 c W) as [m' [E [Wm _]]]; congruence).
  destruct (byte_q o x r Hr Vx) as [_ Qx]. destruct (byte_q o y g Hg' Vy) as [_ Qy]. destruct (byte_q o z b Hb Vz) as [_ Qz].
  pose proof (c01_unit o (x /. $255)) as Ux. pose proof (c01_unit o (y /. $255)) as Uy. pose proof (c01_unit o (z /. $255)) as Uz.
  set (x0 := c01 (x /. $255)) in * . set (y0 := c01 (y /. $255)) in * . set (z0 := c01 (z /. $255)) in * .
  change (fval x0 = q255 r) in Qx. change (fval y0 = q255 g) in Qy. change (fval z0 = q255 b) in Qz.
  assert (H1 : at_addr (pushed h c1) (length (colors h)) c1) by apply at_new.
  assert (Es1 : rgb_space c1 = Some i) by congruence.
  destruct (deep_there (pushed h c1) (length (colors h)) c1 i s gm x0 y0 z0 Px Py Pz H1 W1 C1 Es1 Hs Hg) as
    [q [m [h1 [E2 [Hm [Wm [j [d [h2 [E3 [Hd [Wd [Al [S [x' [y' [z' [Cd [Nx [Ny Nz]]]]]]]]]]]]]]]]]]]].
  { apply T; assumption. }
  assert (D1 : dispatches (@to_xyz f32 (F32 o)) RGB_TRUE (@rgb_true_to_xyz f32 (F32 o))) by disp.
  assert (D2 : dispatches (@to_rgb_true f32 (F32 o)) XYZ (@xyz_to_rgb_true f32 (F32 o))) by disp.
  assert (E4 : @rgb_deep_to_rgb_true_f f32 (F32 o) d = Ok (Color RGB_TRUE RGB_TRUE [@c255 f32 (F32 o) (@fround f32 (F32 o) (x' *. $255)); @c255 f32 (F32 o) (@fround f32 (F32 o) (y' *. $255)); @c255 f32 (F32 o) (@fround f32 (F32 o) (z' *. $255))]
     (c01 (@fround f32 (F32 o) (m_alpha d *. $255) /. $255)) $255 $0 (rgb_space d))).
  { unfold rgb_deep_to_rgb_true_f, with3. rewrite Cd, rgb_truecolor_nf. rewrite (alpha_std (AF := F32 o) d _ Wd eq_refl). reflexivity. }
  exists q. eexists. exists m. eexists. exists h1. eexists.
  split. { rewrite (D1 h p c Hp (wf_ty _ _ W)). unfold rgb_true_to_xyz, bind.
    change (@rgb_true_to_rgb_deep f32 (F32 o) (Some p) h) with (@leaf f32 RGB_TRUE (@rgb_true_to_rgb_deep_f f32 (F32 o)) (Some p) h).
    rewrite (leaf_run RGB_TRUE _ h p c c1 Hp W E1). exact E2. }
  split; [exact Hm|].
  split. { rewrite (D2 h1 q m Hm (wf_ty _ _ Wm)). unfold xyz_to_rgb_true, bind. rewrite E3. 
    exact (leaf_run RGB_DEEP _ h2 j d _ Hd Wd E4). }
  split; [apply at_new|]. split; [apply (wf_ty _ _ Wm)|].
  split; [reflexivity|]. split; [exists x', y', z'; split; [reflexivity|auto]|].
  split; [|cbn [rgb_space]; congruence]. rewrite Al, A1. exact (byte_alpha o _ a Ha Ca).
Qed.
Lemma to8_keeps v n x : near x (fval v) keep_err -> (0 <= n <= 255)%Z -> fval v = q255 n -> is_value (to8 x) (IZR n).
Proof.
  intros N Hn E. rewrite E in N. destruct (q255_near n Hn) as [K _]. pose proof (near_move _ _ _ _ _ N K) as N'.
  destruct (to_byte o x (IZR n) _ N' ltac:(split; [apply (IZR_le 0)|apply (IZR_le n 255)]; lia)) as [w [Bw [V KK]]].
  { unfold keep_err, step. num. }
  assert (w = n) as <-; [|exact V]. apply int_eq. eapply Rle_lt_trans; [exact KK|]. unfold keep_err, step. num.
Qed.
Lemma bytes_xyz r g b a : @wf_color f32 (F32 o) RGB_TRUE c -> is_byte r -> is_byte g -> is_byte b -> is_byte a -> has_bytes r g b c -> is_value (@alpha f32 (F32 o) c) (IZR a) ->
  A (q255 r) -> A (q255 g) -> A (q255 b) ->
  via (@to_xyz f32 (F32 o)) (@to_rgb_true f32 (F32 o)) h p (fun m d => ty m = XYZ /\ has_bytes r g b d /\
    is_value (@alpha f32 (F32 o) d) (IZR a) /\ rgb_space d = rgb_space c).
Proof.
  intros W Hr Hg' Hb Ha HB Ca Ar Ag Ab.
  assert (L : forall n v, A (q255 n) -> (0 <= n <= 255)%Z -> unitf v -> fval v = q255 n -> lands gm v (fun x => is_value (to8 x) (IZR n))).
  { intros n v An Hn Uv Ev t d UT N E. apply (to8_keeps v); auto. apply (CK v t d); auto. rewrite Ev. exact An. }
  eapply via_mono; [apply (bytes_land r g b a (fun x => is_value (to8 x) (IZR r)) (fun x => is_value (to8 x) (IZR g)) (fun x => is_value (to8 x) (IZR b)) W Hr Hg' Hb Ha HB Ca); intros; apply lands_trip; auto; apply L; assumption|].
  intros m d [T1 [T2 [[x [y [z [Cd [Px [Py Pz]]]]]] K]]]. split; [exact T1|]. split; [|exact K].
  split; [exact T2|]. unfold comp_sat. rewrite Cd. split; [|split]; eexists; (split; [reflexivity|assumption]).
Qed.
End Call.
End Xyz.

(** ** The presets *)
Lemma faithful_gamma o addr s : accurate_pow o -> In (Ok s) (faithful_presets o addr) -> exists g, s_gamma s = Some g /\ curve_keeps o g.
Proof.
  intros AP I. unfold faithful_presets in I. cbn [In] in I.
  unfold space_sRGB, space_adobeRGB, space_americaNTSC, space_oldNTSC, space_appleRGB, space_uhdtv, space_adobeWideGammutRGB, space_bestRGB, space_betaRGB,
    space_bruceRGB, space_colorMatchRGB, space_donRGB4, space_ektaSpacePS5, space_ProPhotoRGB, space_SMPTE_C_RGB, space_cieXYZ in I.
  repeat (destruct I as [I|I]; [match type of I with space_ctor _ _ _ _ _ _ _ (Some ?g) = _ => exists g; split; [exact (ctor_gamma o _ _ _ _ _ _ _ _ _ I)|] end; clear I|]); try (destruct I).
  all: match goal with
    | |- curve_keeps _ gamma_sRGB => exact (keeps_srgb o AP)
    | |- curve_keeps _ gammaUHDTV => exact (keeps_uhdtv o AP)
    | |- curve_keeps _ gammaAdobe => exact (keeps_adobe o AP)
    | |- curve_keeps _ gamma1_8 => exact (keeps_18 o AP)
    | |- curve_keeps _ gamma2_2 => exact (keeps_22 o AP) end.
Qed.
Ltac find := match goal with |- ?a = ?a \/ _ => left; reflexivity | |- ?a = ?a => reflexivity | |- _ \/ _ => right; find end.
Lemma linear_ok o addr (s : space_def f32) : In (Ok s) (@space_presets f32 (F32 o) addr) -> Ok s <> @space_cieRGB f32 (F32 o) addr -> space_ok e26 z16 s = true.
Proof.
  intros I N. pose proof (all_ok o addr) as A. apply andb_true_iff in A. destruct A as [A B]. rewrite forallb_forall in A.
  rewrite <- (firstn_skipn 18) in I. apply in_app_or in I. destruct I as [I|I]; [exact (A _ I)|].
  unfold space_presets in I. cbn [skipn In] in I. destruct I as [I|[I|[]]]; [exfalso; apply N; symmetry; exact I|]. rewrite I in B. exact B.
Qed.
Lemma faithful_ok o addr s : accurate_pow o -> In (Ok s) (faithful_presets o addr) -> space_ok e26 z16 s = true /\ exists g, s_gamma s = Some g /\ curve_keeps o g.
Proof.
  intros AP I. split; [|apply (faithful_gamma o addr s AP I)].
  pose proof (all_ok o addr) as A. apply andb_true_iff in A. destruct A as [A B]. rewrite forallb_forall in A.
  assert (K : In (Ok s) (firstn 18 (@space_presets f32 (F32 o) addr)) \/ Ok s = @space_cieXYZ f32 (F32 o) addr).
  { unfold faithful_presets in I. cbn [In] in I. unfold space_presets. cbn [firstn In].
    repeat (destruct I as [I|I]; [rewrite <- I; clear; first [left; find|right; find]|]). destruct I. }
  destruct K as [K|K]; [exact (A _ K)|]. rewrite <- K in B. exact B.
Qed.
Lemma gap1 n : is_byte n -> gap 1 (q255 n).
Proof.
  intros Hn. assert (D : n = 0%Z \/ (1 <= n)%Z) by (unfold is_byte in Hn; lia). destruct (byte_gap n 1 Hn D ltac:(lia)) as [E|E]; [left|right]; lra.
Qed.
Lemma xyz_bytes : forall o (h : heap f32) p c i s addr r g b a, accurate_pow o -> In (Ok s) (faithful_presets o addr) ->
  at_addr h p c -> @wf_color f32 (F32 o) RGB_TRUE c -> rgb_space c = Some i -> nth_error (spaces h) i = Some s ->
  is_byte r -> is_byte g -> is_byte b -> is_byte a -> has_bytes r g b c -> is_value (@alpha f32 (F32 o) c) (IZR a) ->
  via (@to_xyz f32 (F32 o)) (@to_rgb_true f32 (F32 o)) h p (fun m d => ty m = XYZ /\ has_bytes r g b d /\
    is_value (@alpha f32 (F32 o) d) (IZR a) /\ rgb_space d = rgb_space c).
Proof.
  intros o h p c i s addr r g b a AP I Hp W Es Hs Hr Hg Hb Ha HB Ca. destruct (faithful_ok o addr s AP I) as [OK [gm [Gm CK]]].
  apply (bytes_xyz o h p c i s gm Hp Es Hs Gm OK (gap 1) CK r g b a W Hr Hg Hb Ha HB Ca); apply gap1; assumption.
Qed.
Lemma deep_comps o (c : color f32) x y z : @wf_color f32 (F32 o) RGB_DEEP c -> comps c = [x; y; z] -> unitf x /\ unitf y /\ unitf z.
Proof.
  intros W Ec. split; [|split]; [apply (comp_unit o c 0)|apply (comp_unit o c 1)|apply (comp_unit o c 2)]; auto; rewrite Ec; reflexivity.
Qed.
Lemma keep_500 : keep_err <= / 500. Proof. unfold keep_err, step. num. Qed.
Lemma xyz_deep : forall o (h : heap f32) p c i s addr r g b, accurate_pow o -> In (Ok s) (faithful_presets o addr) ->
  at_addr h p c -> @wf_color f32 (F32 o) RGB_DEEP c -> rgb_space c = Some i -> nth_error (spaces h) i = Some s -> comps c = [r; g; b] ->
  (forall x, In x [r; g; b] -> B2R x = 0 \/ / 256 <= B2R x) ->
  via (@to_xyz f32 (F32 o)) (@to_rgb_deep f32 (F32 o)) h p (fun m d => ty m = XYZ /\ ty d = RGB_DEEP /\
    comp_sat d 0 (approx (B2R r) (/ 500)) /\ comp_sat d 1 (approx (B2R g) (/ 500)) /\ comp_sat d 2 (approx (B2R b) (/ 500)) /\
    m_alpha d = m_alpha c /\ rgb_space d = rgb_space c).
Proof.
  intros o h p c i s addr r g b AP I Hp W Es Hs Ec G. destruct (faithful_ok o addr s AP I) as [OK [gm [Gm CK]]].
  destruct (deep_comps o c r g b W Ec) as [Ux [Uy Uz]].
  assert (G' : forall x, In x [r; g; b] -> gap 1 (fval x)) by (intros x Hx; destruct (G x Hx) as [E|E]; [left|right]; unfold fval in *; lra).
  pose proof (deep_xyz o h p c i s gm Hp Es Hs Gm OK (gap 1) CK r g b W Ec Ux Uy Uz (G' r ltac:(simpl; auto)) (G' g ltac:(simpl; auto)) (G' b ltac:(simpl; auto))) as V.
  apply (via_mono _ _ _ _ _ _ V). intros m d [T1 [T2 [[x' [X1 X2]] [[y' [Y1 Y2]] [[z' [Z1 Z2]] K]]]]].
  assert (A : forall v x, approx v keep_err x -> approx v (/ 500) x) by (intros v x H; apply (near_weaken _ _ _ _ H keep_500)).
  split; [exact T1|]. split; [exact T2|]. split; [exists x'; auto|]. split; [exists y'; auto|]. split; [exists z'; auto|exact K].
Qed.
(** linear gamma: no pieces *)
Lemma linear_keeps o v : unitf v -> lands o (Gamma [] []) v (near_to v (26 * u)).
Proof.
  intros U L d UL [FL N] [E _]. unfold inverse_gamma_correction, gamma_correction in * . cbn [ig_parts g_parts apply_parts] in * .
  destruct (c01_val o v (proj1 U) (proj2 U)) as [_ V]. rewrite V in N. apply c01_near_unit; [|exact (proj2 U)]. split; [exact FL|]. lra.
Qed.
Lemma xyz_linear : forall o (h : heap f32) p c i s addr r g b, In (Ok s) (@space_presets f32 (F32 o) addr) -> Ok s <> @space_cieRGB f32 (F32 o) addr ->
  at_addr h p c -> @wf_color f32 (F32 o) RGB_DEEP c -> rgb_space c = Some i -> nth_error (spaces h) i = Some (set_gamma_curve s (Some (Gamma [] []))) -> comps c = [r; g; b] ->
  via (@to_xyz f32 (F32 o)) (@to_rgb_deep f32 (F32 o)) h p (fun m d => ty m = XYZ /\ ty d = RGB_DEEP /\
    comp_sat d 0 (approx (B2R r) (26 / 16777216)) /\ comp_sat d 1 (approx (B2R g) (26 / 16777216)) /\ comp_sat d 2 (approx (B2R b) (26 / 16777216)) /\
    m_alpha d = m_alpha c /\ rgb_space d = rgb_space c).
Proof.
  intros o h p c i s addr x y z I NE Hp W Es Hs Ec. pose proof (linear_ok o addr s I NE) as OK.
  destruct (deep_comps o c x y z W Ec) as [Ux [Uy Uz]].
  destruct (deep_there o h p c i (set_gamma_curve s (Some (Gamma [] []))) (Gamma [] []) x y z (near_to x (26 * u)) (near_to y (26 * u)) (near_to z (26 * u)) Hp W Ec Es Hs eq_refl) as [q [m [h1 [E1 [Hm [Wm [j [d [h2 [E2 [Hd [Wd [Al [S [x' [y' [z' [Cd [Nx [Ny Nz]]]]]]]]]]]]]]]]]]]];
    try (apply lands_trip; [exact OK|apply linear_keeps; assumption..]).
  exists q, j, m, d, h1, h2.
  assert (D1 : dispatches (@to_xyz f32 (F32 o)) RGB_DEEP (@rgb_deep_to_xyz f32 (F32 o))) by disp.
  assert (D2 : dispatches (@to_rgb_deep f32 (F32 o)) XYZ (@xyz_to_rgb_deep f32 (F32 o))) by disp.
  split; [rewrite (D1 h p c Hp (wf_ty _ _ W)); exact E1|]. split; [exact Hm|]. split; [rewrite (D2 h1 q m Hm (wf_ty _ _ Wm)); exact E2|]. split; [exact Hd|].
  split; [apply (wf_ty _ _ Wm)|]. split; [apply (wf_ty _ _ Wd)|].
  assert (Q : forall v x, near x v (26 * u) -> approx v (26 / 16777216) x) by (intros v w N; apply (near_weaken _ _ _ _ N); num).
  split; [exists x'; split; [rewrite Cd; reflexivity|apply Q, Nx]|]. split; [exists y'; split; [rewrite Cd; reflexivity|apply Q, Ny]|].
  split; [exists z'; split; [rewrite Cd; reflexivity|apply Q, Nz]|]. split; assumption.
Qed.

(** ** PAL/SECAM, DCI P3 and ROMM *)
Lemma gap_bright n : is_byte n -> (6 <= n)%Z -> 6 / 256 <= q255 n.
Proof.
  intros Hn H. destruct (byte_gap n 6 Hn (or_intror H) ltac:(lia)) as [E|E]; [|lra]. exfalso. destruct (q255_near n Hn) as [K _]. assert (6 <= IZR n) by (apply IZR_le; lia).
  apply Rabs_le_inv in K. num.
Qed.
Lemma dark_sp o addr (s : space_def f32) : Ok s = @space_pal_secam f32 (F32 o) addr \/ Ok s = @space_dci_p3 f32 (F32 o) addr \/ Ok s = @space_rommRGB f32 (F32 o) addr -> space_ok e26 z16 s = true.
Proof.
  intros I. pose proof (all_ok o addr) as A. apply andb_true_iff in A. destruct A as [A _]. rewrite forallb_forall in A.
  apply (A (Ok s)). unfold space_presets. cbn [firstn In]. destruct I as [E|[E|E]]; rewrite E; clear; find.
Qed.
Lemma xyz_bright : forall o (h : heap f32) p c i s addr r g b a, accurate_pow o ->
  Ok s = @space_pal_secam f32 (F32 o) addr \/ Ok s = @space_dci_p3 f32 (F32 o) addr ->
  at_addr h p c -> @wf_color f32 (F32 o) RGB_TRUE c -> rgb_space c = Some i -> nth_error (spaces h) i = Some s ->
  is_byte r -> is_byte g -> is_byte b -> is_byte a -> has_bytes r g b c -> is_value (@alpha f32 (F32 o) c) (IZR a) ->
  (6 <= r)%Z -> (6 <= g)%Z -> (6 <= b)%Z ->
  via (@to_xyz f32 (F32 o)) (@to_rgb_true f32 (F32 o)) h p (fun m d => ty m = XYZ /\ has_bytes r g b d /\
    is_value (@alpha f32 (F32 o) d) (IZR a) /\ rgb_space d = rgb_space c).
Proof.
  intros o h p c i s addr r g b a AP I Hp W Es Hs Hr Hg Hb Ha HB Ca R6 G6 B6.
  assert (K : exists gm, s_gamma s = Some gm /\ curve_on o (fun x => 6 / 256 <= x) gm).
  { destruct I as [E|E]; symmetry in E; unfold space_pal_secam, space_dci_p3 in E;
      match type of E with space_ctor _ _ _ _ _ _ _ (Some ?g) = _ => exists g; split; [exact (ctor_gamma o _ _ _ _ _ _ _ _ _ E)|] end; clear E;
      match goal with |- curve_on _ _ gamma2_6 => exact (bright_26 o AP) | |- curve_on _ _ gamma2_8 => exact (bright_28 o AP) end. }
  destruct K as [gm [Gm CK]]. assert (OK : space_ok e26 z16 s = true) by (apply (dark_sp o addr); tauto).
  apply (bytes_xyz o h p c i s gm Hp Es Hs Gm OK (fun x => 6 / 256 <= x) CK r g b a W Hr Hg Hb Ha HB Ca); apply gap_bright; assumption.
Qed.
Lemma romm_space o addr (s : space_def f32) : Ok s = @space_rommRGB f32 (F32 o) addr -> space_ok e26 z16 s = true /\ s_gamma s = Some (@gammaRomm f32 (F32 o)).
Proof.
  intros E. split; [apply (dark_sp o addr); tauto|]. symmetry in E. unfold space_rommRGB in E. exact (ctor_gamma o _ _ _ _ _ _ _ _ _ E).
Qed.
Lemma xyz_romm : forall o (h : heap f32) p c i s addr r g b a, accurate_pow o -> Ok s = @space_rommRGB f32 (F32 o) addr ->
  at_addr h p c -> @wf_color f32 (F32 o) RGB_TRUE c -> rgb_space c = Some i -> nth_error (spaces h) i = Some s ->
  is_byte r -> is_byte g -> is_byte b -> is_byte a -> has_bytes r g b c -> is_value (@alpha f32 (F32 o) c) (IZR a) ->
  (forall n, In n [r; g; b] -> n = 0%Z \/ (8 <= n)%Z) ->
  via (@to_xyz f32 (F32 o)) (@to_rgb_true f32 (F32 o)) h p (fun m d => ty m = XYZ /\ has_bytes r g b d /\
    is_value (@alpha f32 (F32 o) d) (IZR a) /\ rgb_space d = rgb_space c).
Proof.
  intros o h p c i s addr r g b a AP I Hp W Es Hs Hr Hg Hb Ha HB Ca D. destruct (romm_space o addr s I) as [OK Gm].
  assert (G : forall n, is_byte n -> n = 0%Z \/ (8 <= n)%Z -> gap (803 / 100) (q255 n)).
  { intros n Hn Dn. destruct (byte_gap n 8 Hn Dn ltac:(lia)) as [E|E]; [left|right]; lra. }
  apply (bytes_xyz o h p c i s _ Hp Es Hs Gm OK (gap (803 / 100)) (keeps_romm o AP) r g b a W Hr Hg Hb Ha HB Ca); apply G; auto; apply D; simpl; auto.
Qed.

(** The dark bytes of ROMM come back smaller. *)
Lemma romm_power n (v : f32) : (1 <= n <= 7)%Z -> fval v = q255 n -> 16 * Rpower (fval v) (9 / 5) * 255 <= IZR n - 6 / 10 /\ 1 / 300 <= fval v /\ Rpower (fval v) (9 / 5) <= 16 / 10000.
Proof.
  intros Hn E. destruct (q255_near n ltac:(lia)) as [K _]. rewrite <- E in K. apply Rabs_le_inv in K. set (x := fval v) in * . clearbody x. clear E.
  assert (B : 1 <= IZR n <= 7) by (split; apply IZR_le; lia). assert (X : 1 / 300 <= x <= (IZR n + 1 / 1000) / 255) by (split; num).
  assert (P : Rpower x (9 / 5) <= (IZR n - 6 / 10) / 4080).
  { apply Rle_trans with (Rpower ((IZR n + 1 / 1000) / 255) (9 / 5)); [apply Rp_le_base; lra|]. replace (9 / 5) with (INR 9 / INR 5) by (simpl INR; lra).
    assert (D : n = 1%Z \/ n = 2%Z \/ n = 3%Z \/ n = 4%Z \/ n = 5%Z \/ n = 6%Z \/ n = 7%Z) by lia.
    clear - D. destruct D as [-> | [-> | [-> | [-> | [-> | [-> | -> ]]]]]]; (apply Rp_le_q; [lra|lra|lia|lra]). }
  lra.
Qed.
Definition smaller (n : Z) (x : f32) : Prop := exists z, (0 <= z < n)%Z /\ is_value x (IZR z).
Lemma romm_lands o (AP : accurate_pow o) n v : (1 <= n <= 7)%Z -> unitf v -> fval v = q255 n -> lands o (@gammaRomm f32 (F32 o)) v (fun x => smaller n (to8 o x)).
Proof.
  intros Hn Uv E L d UL NL [CE _]. destruct (romm_power n v Hn E) as [P1 [P2 P3]]. rewrite (proj1 (romm_runs o v Uv)) in NL.
  pose proof (within_R (19529 # 10000000) (lit32 (1953 # 1000000)) (19531 # 10000000) ltac:(vm_compute; reflexivity)) as [F1 B1]. unfold Q2R in B1; cbn [Qnum Qden] in B1.
  destruct (leb_cases v (lit32 (1953 # 1000000)) (proj1 Uv) F1) as [[_ C]|[C0 C]]; [exfalso; lra|]. rewrite C0 in NL. clear C0 C.
  pose proof (within_R (30198988 # 16777216) (lit32 (18 # 10)) (30198989 # 16777216) ltac:(vm_compute; reflexivity)) as [F2 B2]. unfold Q2R in B2; cbn [Qnum Qden] in B2.
  pose proof (Rp_pos (fval v) (9 / 5)) as P0.
  assert (PN : near (@c01 f32 (F32 o) (o_pow o v (lit32 (18 # 10)))) (Rpower (fval v) (9 / 5)) (316 * u * Rpower (fval v) (9 / 5) + tiny)).
  { apply c01_near_unit; [|lra]. apply pow_near; auto; try lra. apply Rabs_le. num. }
  destruct NL as [FL NL]. destruct PN as [_ PN]. apply Rabs_le_inv in NL, PN. set (t := Rpower (fval v) (9 / 5)) in * .
  assert (LT : t - 30 * u <= fval L <= t + 30 * u) by num.
  destruct (romm_dark o L UL ltac:(num)) as [Fb Eb]. apply Rabs_le_inv in Eb.
  assert (NB : near (@c01 f32 (F32 o) (@gamma_correction f32 (F32 o) (@gammaRomm f32 (F32 o)) L)) (16 * t * 255 / 255) (600 * u)).
  { apply c01_near_unit; [|lra]. split; [exact Fb|]. apply Rabs_le. num. }
  assert (BN : IZR n <= 7) by (apply IZR_le; lia).
  destruct (to_byte o _ _ _ NB ltac:(lra) ltac:(num)) as [z [Bz [V KK]]]. exists z. split; [|exact V]. split; [lia|].
  apply lt_IZR. apply Rabs_le_inv in KK. num.
Qed.
Lemma romm_smaller : forall o (h : heap f32) p c i s addr r g b a, accurate_pow o -> Ok s = @space_rommRGB f32 (F32 o) addr ->
  at_addr h p c -> @wf_color f32 (F32 o) RGB_TRUE c -> rgb_space c = Some i -> nth_error (spaces h) i = Some s ->
  is_byte r -> is_byte g -> is_byte b -> is_byte a -> has_bytes r g b c -> is_value (@alpha f32 (F32 o) c) (IZR a) ->
  via (@to_xyz f32 (F32 o)) (@to_rgb_true f32 (F32 o)) h p (fun m d => ty m = XYZ /\ ty d = RGB_TRUE /\
    forall k n, nth_error [r; g; b] k = Some n -> (1 <= n <= 7)%Z -> comp_sat d k (fun x => exists z, (0 <= z < n)%Z /\ is_value x (IZR z))).
Proof.
  intros o h p c i s addr r g b a AP I Hp W Es Hs Hr Hg Hb Ha HB Ca. destruct (romm_space o addr s I) as [OK Gm].
  set (P := fun n x => (1 <= n <= 7)%Z -> smaller n (to8 o x)).
  assert (L : forall n v, unitf v -> fval v = q255 n -> lands o (@gammaRomm f32 (F32 o)) v (P n)).
  { intros n v Uv Ev t d UT N E Hn. apply (romm_lands o AP n v Hn Uv Ev t d UT N E). }
  eapply via_mono; [apply (bytes_land o h p c i s _ Hp Es Hs Gm r g b a (P r) (P g) (P b) W Hr Hg Hb Ha HB Ca); intros; apply lands_trip; auto|].
  intros m d [T1 [T2 [[x [y [z [Cd [Qx [Qy Qz]]]]]] _]]]. split; [exact T1|]. split; [exact T2|]. intros k n Hk Hn. unfold comp_sat. rewrite Cd.
  destruct k as [|[|[|k]]]; cbn [nth_error] in Hk |- * ; try (injection Hk as <-; eexists; split; [reflexivity|]; [apply Qx, Hn || apply Qy, Hn || apply Qz, Hn]).
  destruct k; discriminate.
Qed.

(** ** The hypotheses can be met *)
Lemma bytes_in o (s : space_def f32) r g b a : is_byte r -> is_byte g -> is_byte b -> is_byte a -> exists (h : heap f32) c, at_addr h 0%nat c /\ @wf_color f32 (F32 o) RGB_TRUE c /\
  rgb_space c = Some 0%nat /\ nth_error (spaces h) 0 = Some s /\ has_bytes r g b c /\ is_value (@alpha f32 (F32 o) c) (IZR a).
Proof.
  intros Hr Hg Hb Ha. destruct (bytes_exist o r g b a Hr Hg Hb Ha) as [h [c [_ [W [HB Ca]]]]].
  exists (Heap [Color (cls c) (ty c) (comps c) (m_alpha c) (m_max c) (m_min c) (Some 0%nat)] [s]), (Color (cls c) (ty c) (comps c) (m_alpha c) (m_max c) (m_min c) (Some 0%nat)).
  split; [reflexivity|]. split; [destruct c, W; constructor; assumption|]. split; [reflexivity|]. split; [reflexivity|]. split; [destruct c; exact HB|]. destruct c; exact Ca.
Qed.
Lemma presets_ok o addr : forall x, In x (faithful_presets o addr) -> exists s, x = Ok s.
Proof.
  assert (K : forallb (fun x : outcome (space_def f32) => match x with Ok _ => true | _ => false end) (faithful_presets o addr) = true) by (vm_compute; reflexivity).
  rewrite forallb_forall in K. intros x I. specialize (K x I). clear I. destruct x as [s| | |]; try discriminate. exists s. reflexivity.
Qed.
Lemma others_ok o addr : (exists s, @space_pal_secam f32 (F32 o) addr = Ok s) /\ (exists s, @space_dci_p3 f32 (F32 o) addr = Ok s) /\
  (exists s, @space_rommRGB f32 (F32 o) addr = Ok s) /\ (exists s, @space_cieRGB f32 (F32 o) addr = Ok s).
Proof.
  assert (K : forallb (fun x : outcome (space_def f32) => match x with Ok _ => true | _ => false end)
    [@space_pal_secam f32 (F32 o) addr; @space_dci_p3 f32 (F32 o) addr; @space_rommRGB f32 (F32 o) addr; @space_cieRGB f32 (F32 o) addr] = true) by (vm_compute; reflexivity).
  rewrite forallb_forall in K. assert (Q : forall x, In x [@space_pal_secam f32 (F32 o) addr; @space_dci_p3 f32 (F32 o) addr; @space_rommRGB f32 (F32 o) addr; @space_cieRGB f32 (F32 o) addr] -> exists s, x = Ok s).
  { intros x I. specialize (K x I). clear I. destruct x as [s| | |]; try discriminate. exists s. reflexivity. }
  clear K. repeat split; apply Q; cbn [In]; find.
Qed.
