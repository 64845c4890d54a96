(** * Binary32 round trips as library calls: deep colours and bytes (C149 - C152) *)
From Coq Require Import ZArith QArith Reals Lra Lia List Bool.
From Flocq Require Import Core IEEE754.BinarySingleNaN.
From Verif Require Import Arith Outcome ColorModel GammaModel MatrixModel SpaceModel Heap Converter F32 F32Facts RArith
  Spec Spec32 Laws NormalForms Alpha8 Core_Proofs Core2_Proofs Core3_Proofs Core4_Proofs Hue32 Spec_Matrix Spec_Conv Spec_Round
  Conv_Proofs Conv2_Proofs Run_Proofs HueR_Proofs Round_Proofs Round2_Proofs Error_Proofs Error2_Proofs Error3_Proofs Error4_Proofs Error5_Proofs Error6_Proofs Spec_Error.
Import ListNotations.
Local Open Scope R_scope.
Local Notation fin x := (is_finite x = true).

Section Chain.
Context {F : Type} {AF : Arith F} {AL : ArithLaws F} {A8 : Alpha8Laws F}.
Definition two (X : ctype) (f : color F -> outcome (color F)) (D : ctype) (g : color F -> outcome (color F)) (p : ptr) : M F ptr := bind (leaf X f p) (leaf D g).
Lemma two_run X f D g (h : heap F) p c m r : at_addr h p c -> wf_color X c -> leaf_ok X D f -> f c = Ok m -> g m = Ok r ->
  two X f D g (Some p) h = (Ok (Some (length (colors (pushed h m)))), pushed (pushed h m) r).
Proof.
  intros Hp W L E1 E2. assert (Wm : wf_color D m) by (destruct (L c W) as [m' [E [Wm _]]]; congruence).
  assert (Hm : at_addr (pushed h m) (length (colors h)) m) by apply at_new.
  unfold two, bind. rewrite (leaf_run X f h p c m Hp W E1). apply (leaf_run D g _ _ m r Hm Wm E2).
Qed.
Lemma via_two go back X D Y f1 f2 g1 g2 (h : heap F) p c c1 m d1 d (P : color F -> color F -> Prop) :
  dispatches go X (two X f1 D f2) -> dispatches back Y (two Y g1 D g2) -> at_addr h p c -> wf_color X c ->
  leaf_ok X D f1 -> leaf_ok D Y f2 -> leaf_ok Y D g1 -> f1 c = Ok c1 -> f2 c1 = Ok m -> g1 m = Ok d1 -> g2 d1 = Ok d -> P m d -> via go back h p P.
Proof.
  intros D1 D2 Hp W L1 L2 L3 E1 E2 E3 E4 H.
  assert (W1 : wf_color D c1) by (destruct (L1 c W) as [m' [E [Wm _]]]; congruence).
  assert (Wm : wf_color Y m) by (destruct (L2 c1 W1) as [m' [E [Wm _]]]; congruence).
  assert (Hm : at_addr (pushed (pushed h c1) m) (length (colors (pushed h c1))) m) by apply at_new.
  do 6 eexists. split; [rewrite (D1 h p c Hp (wf_ty _ _ W)); apply (two_run X f1 D f2 h p c c1 m Hp W L1 E1 E2)|]. split; [exact Hm|].
  split; [rewrite (D2 _ _ _ Hm (wf_ty _ _ Wm)); apply (two_run Y g1 D g2 _ _ m d1 d Hm Wm L3 E3 E4)|]. split; [apply at_new|exact H].
Qed.
End Chain.

Section E.
Context (o : oracle).
Local Notation "x *. y" := (@fmul f32 (F32 o) x y) (at level 40, left associativity).
Local Notation "x /. y" := (@fdiv f32 (F32 o) x y) (at level 40, left associativity).
Local Notation "$ n" := (fz (H := F32 o) n) (at level 2).

(** ** Deep colours *)
Section Deep.
Variables (h : heap f32) (p : nat) (c : color f32) (r g b : f32).
Hypothesis (Hp : at_addr h p c) (W : @wf_color f32 (F32 o) RGB_DEEP c) (Ec : comps c = [r; g; b]).

Definition back_near (Y : ctype) (R G B e : R) (keep : Prop) (m d : color f32) : Prop :=
  ty m = Y /\ ty d = RGB_DEEP /\ comp_sat d 0 (approx R e) /\ comp_sat d 1 (approx G e) /\ comp_sat d 2 (approx B e) /\
  (keep -> m_alpha d = m_alpha c) /\ rgb_space d = rgb_space c.

Lemma deep_via Y go gof backf R G B e e' (keep keep' : Prop) : trip Y gof backf c R G B e keep -> e <= e' -> (keep' -> keep) ->
  dispatches go RGB_DEEP (leaf RGB_DEEP gof) -> dispatches (@to_rgb_deep f32 (F32 o)) Y (leaf Y backf) ->
  @leaf_ok f32 (F32 o) RGB_DEEP Y gof -> via go (@to_rgb_deep f32 (F32 o)) h p (back_near Y R G B e' keep').
Proof.
  intros [m [d [x [y [z [E1 [E2 [T1 [T2 [C [N1 [N2 [N3 [A S]]]]]]]]]]]]]] He Hk D1 D2 L.
  eapply (via_leaf (AF := F32 o) go _ RGB_DEEP Y gof backf h p c m d); auto.
  assert (Q : forall v a, near v a e -> approx a e' v) by (intros v a N; exact (near_weaken _ _ _ _ N He)).
  split; [exact T1|]. split; [exact T2|].
  split; [eexists; split; [rewrite C; reflexivity|apply Q, N1]|]. split; [eexists; split; [rewrite C; reflexivity|apply Q, N2]|].
  split; [eexists; split; [rewrite C; reflexivity|apply Q, N3]|]. split; auto.
Qed.
Lemma deep_hsv : via (@to_hsv f32 (F32 o)) (@to_rgb_deep f32 (F32 o)) h p (back_near HSV (B2R r) (B2R g) (blue_back (B2R r) (B2R g) (B2R b)) (/ 262144) True).
Proof. eapply deep_via; [apply (hsv_trip o c r g b W Ec)|num|auto|disp|disp|apply rgb_deep_to_hsv_ok]. Qed.
Lemma deep_hsl : via (@to_hsl f32 (F32 o)) (@to_rgb_deep f32 (F32 o)) h p (back_near HSL (B2R r) (B2R g) (blue_back (B2R r) (B2R g) (B2R b)) (/ 131072)
  (/ 2097152 <= B2R r \/ / 2097152 <= B2R g \/ / 2097152 <= B2R b)).
Proof.
  eapply deep_via; [apply (hsl_trip o c r g b W Ec)|num| |disp|disp|apply rgb_deep_to_hsl_ok].
  pose proof (mx3_ge (fval r) (fval g) (fval b)). intros K. unfold fval in * . num.
Qed.
Lemma deep_hcy : via (@to_hcy f32 (F32 o)) (@to_rgb_deep f32 (F32 o)) h p
  (let B := blue_back (B2R r) (B2R g) (B2R b) in let s := 722 / 10000 * (B - B2R b) in
   back_near HCY (Rmax 0 (B2R r - s)) (Rmax 0 (B2R g - s)) (Rmax 0 (B - s)) (/ 131072) True).
Proof. eapply deep_via; [apply (hcy_trip o c r g b W Ec)|num|auto|disp|disp|apply rgb_deep_to_hcy_ok]. Qed.
Lemma deep_cmyk : via (@to_cmyk f32 (F32 o)) (@to_rgb_deep f32 (F32 o)) h p (back_near CMYK (B2R r) (B2R g) (B2R b) (/ 262144) True).
Proof. eapply deep_via; [apply (cmyk_trip o c r g b W Ec)|num|auto|disp|disp|apply rgb_deep_to_cmyk_ok]. Qed.
End Deep.

(** ** Bytes *)
Definition q255 (n : Z) : R := rnd32 (IZR n / 255).
Lemma q255_near n : (0 <= n <= 255)%Z -> Rabs (q255 n - IZR n / 255) <= 11 / 10 * u /\ 0 <= q255 n <= 1.
Proof.
  intros Hn. assert (B : 0 <= IZR n <= 255) by (split; [apply (IZR_le 0)|apply (IZR_le n 255)]; lia). split.
  - eapply Rle_trans; [apply rnd_err|]. rewrite Rabs_pos_eq by lra. num.
  - apply rnd32_bounds; try sm. lra.
Qed.
Lemma byte_q (a : f32) n : (0 <= n <= 255)%Z -> is_value a (IZR n) -> is_value (@c01 f32 (F32 o) (a /. $255)) (q255 n).
Proof.
  intros Hn Va. rewrite (byte_quot o a n Hn Va). destruct Va as [Fa Va]. destruct (fz_val o 255) as [F2 V2]; [sm|].
  assert (B : 0 <= IZR n <= 255) by (split; [apply (IZR_le 0)|apply (IZR_le n 255)]; lia). change (B2R a) with (fval a) in Va.
  destruct (Bdiv_ok a $255 0 1 Fa F2) as [D1 D2]; try sm; [rewrite V2; lra|rewrite Va, V2; lra|].
  split; [exact D1|]. change (fval (Bdiv mode_NE a $255) = q255 n). rewrite D2, Va, V2. reflexivity.
Qed.
Lemma bb_near r g b : (0 <= r <= 255)%Z -> (0 <= g <= 255)%Z -> (0 <= b <= 255)%Z ->
  Rabs (blue_back (q255 r) (q255 g) (q255 b) - blue_back (IZR r) (IZR g) (IZR b) / 255) <= 11 / 10 * u.
Proof.
  intros Hr Hg Hb. destruct (q255_near r Hr) as [R1 _]. destruct (q255_near g Hg) as [G1 _]. destruct (q255_near b Hb) as [B1 _].
  assert (M : forall n m, (0 <= n <= 255)%Z -> (0 <= m <= 255)%Z -> (n < m)%Z -> q255 n < q255 m).
  { intros n m Hn Hm L. destruct (q255_near n Hn) as [N1 _]. destruct (q255_near m Hm) as [M1 _]. apply Rabs_le_inv in N1, M1.
    assert (IZR n + 1 <= IZR m) by (rewrite <- plus_IZR; apply IZR_le; lia). num. }
  unfold blue_back. destruct (Z_lt_le_dec g b) as [L|L].
  - destruct (Rlt_dec (q255 g) (q255 b)) as [_|N]; [|destruct N; auto]. destruct (Rlt_dec (IZR g) (IZR b)) as [_|N]; [|destruct N; apply IZR_lt, L].
    destruct (Z_lt_le_dec r b) as [L2|L2].
    + destruct (Rle_dec (q255 b) (q255 r)) as [N|_]; [pose proof (M r b Hr Hb L2); lra|]. destruct (Rle_dec (IZR b) (IZR r)) as [N|_]; [apply le_IZR in N; lia|]. exact B1.
    + destruct (Rle_dec (q255 b) (q255 r)) as [_|N]. 2:{ destruct N. destruct (Z.eq_dec b r) as [->|NE]; [lra|]. left. apply M; auto. lia. }
      destruct (Rle_dec (IZR b) (IZR r)) as [_|N]; [|destruct N; apply IZR_le, L2].
      replace (Rmax (IZR b) (IZR g + (IZR r - IZR g) / 60) / 255) with (Rmax (IZR b / 255) (IZR g / 255 + (IZR r / 255 - IZR g / 255) / 60)).
      { apply max_lip; [exact B1|]. apply Rabs_le_inv in R1, G1. apply Rabs_le. lra. }
      unfold Rmax. destruct (Rle_dec _ _), (Rle_dec _ _); lra.
  - destruct (Rlt_dec (q255 g) (q255 b)) as [N|_].
    { destruct (Z.eq_dec g b) as [->|NE]; [lra|]. pose proof (M b g Hb Hg ltac:(lia)). lra. }
    destruct (Rlt_dec (IZR g) (IZR b)) as [N|_]; [apply lt_IZR in N; lia|]. exact B1.
Qed.

Lemma fround_val (x : f32) : fin x -> exists z, is_value (@fround f32 (F32 o) x) (IZR z) /\ Rabs (IZR z - fval x) <= / 2.
Proof.
  intros Fx. cbn [fround F32]. destruct (Bnearbyint_correct 24 128 prec_lt_emax_32 mode_NA x) as [V [Fi _]].
  exists (ZnearestA (fval x)). split.
  - split; [rewrite Fi; exact Fx|]. change (fval (Bnearbyint mode_NA x) = IZR (ZnearestA (fval x))). rewrite V.
    unfold round, F2R, scaled_mantissa, cexp, FIX_exp. simpl. rewrite !Rmult_1_r. reflexivity.
  - rewrite Rabs_minus_sym. apply Znearest_half.
Qed.
(** The byte that a deep channel near [v / 255] becomes. *)
Lemma to_byte (x : f32) v e : near x (v / 255) e -> 0 <= v <= 255 -> 0 <= e <= 1 / 512 -> exists z, (0 <= z <= 255)%Z /\
  is_value (@c255 f32 (F32 o) (@fround f32 (F32 o) (x *. $255))) (IZR z) /\ Rabs (IZR z - v) <= / 2 + 255 * e + 300 * u.
Proof.
  intros N Hv He.
  assert (M : near (x *. $255) v (255 * e + 300 * u)).
  { replace v with (v / 255 * 255) by field. eapply near_weaken; [apply (near_mul o x $255 (v / 255) 255 e 0 1 255 255 N)|]; [apply near_fz; sm|apply Rabs_le; lra|apply Rabs_le; lra|apply Rabs_le; lra|num|num]. }
  destruct (fround_val _ (proj1 M)) as [z [[Fz Vz] Hz]]. set (y := @fround f32 (F32 o) _) in * .
  assert (K : Rabs (IZR z - v) <= / 2 + 255 * e + 300 * u).
  { replace (IZR z - v) with ((IZR z - fval (x *. $255)) + (fval (x *. $255) - v)) by ring. eapply Rle_trans; [apply Rabs_triang|]. pose proof (proj2 M). lra. }
  assert (Bz : (0 <= z <= 255)%Z).
  { apply Rabs_le_inv in K. assert (-1 < IZR z < 256) by num. split; [apply (Z.le_succ_l (-1))|apply Z.lt_succ_r]; apply lt_IZR; simpl; lra. }
  exists z. split; [exact Bz|]. split; [|exact K].
  destruct (clamp_val o y 0 255) as [Fc Vc]; try sm; auto; try lia.
  split; [exact Fc|]. unfold c255. rewrite Vc. change (fval y) with (B2R y). rewrite Vz.
  assert (B : 0 <= IZR z <= 255) by (split; [apply (IZR_le 0)|apply (IZR_le z 255)]; lia).
  rewrite Rmin_left, Rmax_left; lra.
Qed.
Lemma int_eq (z n : Z) : Rabs (IZR z - IZR n) < 1 -> z = n.
Proof.
  intros H. apply Rabs_lt_inv in H. assert (z < n + 1)%Z by (apply lt_IZR; rewrite plus_IZR; lra). assert (n < z + 1)%Z by (apply lt_IZR; rewrite plus_IZR; lra). lia.
Qed.

Definition byte_at (v : R) (x : f32) : Prop := exists z, (0 <= z <= 255)%Z /\ is_value x (IZR z) /\ Rabs (IZR z - v) <= / 2 + / 500.
Lemma byte_at_eq v x n : byte_at v x -> Rabs (v - IZR n) <= 49 / 100 -> is_value x (IZR n).
Proof.
  intros [z [Bz [V K]]] H. assert (z = n) as <-; [|exact V]. apply int_eq. replace (IZR z - IZR n) with ((IZR z - v) + (v - IZR n)) by ring.
  eapply Rle_lt_trans; [apply Rabs_triang|]. lra.
Qed.

Section Bytes.
Variables (h : heap f32) (p : nat) (c : color f32) (r g b a : Z).
Hypothesis (Hp : at_addr h p c) (W : @wf_color f32 (F32 o) RGB_TRUE c).
Hypothesis (Hr : (0 <= r <= 255)%Z) (Hg : (0 <= g <= 255)%Z) (Hb : (0 <= b <= 255)%Z) (Ha : (0 <= a <= 255)%Z).
Hypothesis (Cr : comp_sat c 0 (fun x => is_value x (IZR r))) (Cg : comp_sat c 1 (fun x => is_value x (IZR g))) (Cb : comp_sat c 2 (fun x => is_value x (IZR b))).
Hypothesis (Ca : is_value (@alpha f32 (F32 o) c) (IZR a)).

Definition bytes_back (Y : ctype) (v1 v2 v3 : R) (keep : Prop) (m d : color f32) : Prop :=
  ty m = Y /\ ty d = RGB_TRUE /\ comp_sat d 0 (byte_at v1) /\ comp_sat d 1 (byte_at v2) /\ comp_sat d 2 (byte_at v3) /\
  (keep -> is_value (@alpha f32 (F32 o) d) (IZR a)) /\ rgb_space d = rgb_space c.

Lemma byte_via Y go gof backf (keep : Prop) v1 v2 v3 :
  (forall c1 x y z, @wf_color f32 (F32 o) RGB_DEEP c1 -> comps c1 = [x; y; z] -> fval x = q255 r -> fval y = q255 g -> fval z = q255 b ->
    exists T1 T2 T3, trip Y gof backf c1 T1 T2 T3 (96 * u) keep /\ Rabs (T1 - v1 / 255) <= 10 * u /\ Rabs (T2 - v2 / 255) <= 10 * u /\ Rabs (T3 - v3 / 255) <= 10 * u) ->
  0 <= v1 <= 255 -> 0 <= v2 <= 255 -> 0 <= v3 <= 255 ->
  dispatches go RGB_TRUE (two RGB_TRUE (@rgb_true_to_rgb_deep_f f32 (F32 o)) RGB_DEEP gof) ->
  dispatches (@to_rgb_true f32 (F32 o)) Y (two Y backf RGB_DEEP (@rgb_deep_to_rgb_true_f f32 (F32 o))) ->
  @leaf_ok f32 (F32 o) RGB_DEEP Y gof -> @leaf_ok f32 (F32 o) Y RGB_DEEP backf ->
  via go (@to_rgb_true f32 (F32 o)) h p (bytes_back Y v1 v2 v3 keep).
Proof.
  intros T B1 B2 B3 D1 D2 L2 L3.
  destruct (comps3 c (wf_len _ _ W)) as [x [y [z Ec]]].
  destruct Cr as [x' [Ex Vx]]. destruct Cg as [y' [Ey Vy]]. destruct Cb as [z' [Ez Vz]].
  rewrite Ec in Ex, Ey, Ez. cbn [nth_error] in Ex, Ey, Ez. injection Ex as <-. injection Ey as <-. injection Ez as <-.
  pose proof (@rgb_true_to_rgb_deep_ok f32 (F32 o) _ _) as L1.
  assert (E1 : exists c1, @rgb_true_to_rgb_deep_f f32 (F32 o) c = Ok c1 /\ comps c1 = [@c01 f32 (F32 o) (x /. $255); @c01 f32 (F32 o) (y /. $255); @c01 f32 (F32 o) (z /. $255)] /\
    m_alpha c1 = @alpha f32 (F32 o) c /. $255 /\ rgb_space c1 = rgb_space c).
  { unfold rgb_true_to_rgb_deep_f, with3. rewrite Ec, rgb_deepcolor_nf. eexists. repeat split; reflexivity. }
  destruct E1 as [c1 [E1 [C1 [A1 S1]]]].
  assert (W1 : @wf_color f32 (F32 o) RGB_DEEP c1) by (destruct (L1 c W) as [m' [E [Wm _]]]; congruence).
  destruct (T c1 _ _ _ W1 C1) as [T1 [T2 [T3 [[m [d1 [xx [yy [zz [E2 [E3 [Tm [Td [Cd [N1 [N2 [N3 [A S]]]]]]]]]]]]]] [K1 [K2 K3]]]]]];
    try (apply (byte_q _ _); assumption).
  assert (Wm : @wf_color f32 (F32 o) Y m) by (destruct (L2 c1 W1) as [m' [E [Wm _]]]; congruence).
  assert (Wd : @wf_color f32 (F32 o) RGB_DEEP d1) by (destruct (L3 m Wm) as [m' [E [Wd _]]]; congruence).
  assert (Q : forall v t w, near v t (96 * u) -> Rabs (t - w / 255) <= 10 * u -> 0 <= w <= 255 -> byte_at w (@c255 f32 (F32 o) (@fround f32 (F32 o) (v *. $255)))).
  { intros v t w N K Bw. pose proof (near_move _ _ _ _ _ N K) as N'. destruct (to_byte v w _ N' Bw ltac:(num)) as [zz' [Bz [V KK]]].
    exists zz'. split; [exact Bz|]. split; [exact V|]. eapply Rle_trans; [exact KK|num]. }
  eapply (via_two (AF := F32 o) go _ RGB_TRUE RGB_DEEP Y (@rgb_true_to_rgb_deep_f f32 (F32 o)) gof backf (@rgb_deep_to_rgb_true_f f32 (F32 o)) h p c c1 m d1); try eassumption.
  - unfold rgb_deep_to_rgb_true_f, with3. rewrite Cd, rgb_truecolor_nf. rewrite (alpha_std (AF := F32 o) d1 _ Wd eq_refl). reflexivity.
  - split; [exact Tm|]. split; [reflexivity|]. split; [eexists; split; [reflexivity|exact (Q _ _ _ N1 K1 B1)]|].
    split; [eexists; split; [reflexivity|exact (Q _ _ _ N2 K2 B2)]|]. split; [eexists; split; [reflexivity|exact (Q _ _ _ N3 K3 B3)]|].
    split; [|cbn [rgb_space]; congruence]. intros K. specialize (A K). rewrite A, A1. exact (byte_alpha o _ a Ha Ca).
Qed.

Let bb := blue_back (IZR r) (IZR g) (IZR b).
Lemma byteR n : (0 <= n <= 255)%Z -> 0 <= IZR n <= 255.
Proof. intros. split; [apply (IZR_le 0)|apply (IZR_le n 255)]; lia. Qed.
Lemma bb_byte : IZR b <= bb <= 255 /\ bb - IZR b <= 255 / 60.
Proof.
  pose proof (byteR r Hr). pose proof (byteR g Hg). pose proof (byteR b Hb). unfold bb, blue_back.
  destruct (Rlt_dec _ _); [|lra]. destruct (Rle_dec _ _); [|lra]. unfold Rmax. destruct (Rle_dec _ _); lra.
Qed.
Lemma trip_weaken Y gof backf c1 T1 T2 T3 e e' (k k' : Prop) : trip Y gof backf c1 T1 T2 T3 e k -> e <= e' -> (k' -> k) -> trip Y gof backf c1 T1 T2 T3 e' k'.
Proof.
  intros [m [d [x [y [z [E1 [E2 [Tm [Td [C [N1 [N2 [N3 [A S]]]]]]]]]]]]]] He Hk. exists m, d, x, y, z. repeat (split; [assumption|]).
  repeat (split; [eapply near_weaken; eassumption|]). split; auto.
Qed.
Lemma qn n : (0 <= n <= 255)%Z -> Rabs (q255 n - IZR n / 255) <= 10 * u.
Proof. intros Hn. eapply Rle_trans; [apply q255_near, Hn|num]. Qed.

Lemma bytes_hsv : via (@to_hsv f32 (F32 o)) (@to_rgb_true f32 (F32 o)) h p (bytes_back HSV (IZR r) (IZR g) bb True).
Proof.
  destruct bb_byte. eapply byte_via; try (apply byteR; assumption); [|pose proof (byteR b Hb); lra|disp|disp|apply rgb_deep_to_hsv_ok|apply hsv_to_rgb_deep_ok].
  intros c1 x y z W1 C1 Vx Vy Vz. pose proof (hsv_trip o c1 x y z W1 C1) as T. rewrite Vx, Vy, Vz in T. do 3 eexists. split; [eapply trip_weaken; [exact T|num|auto]|].
  split; [apply qn, Hr|]. split; [apply qn, Hg|]. eapply Rle_trans; [apply bb_near; assumption|num].
Qed.
Lemma bytes_hsl : via (@to_hsl f32 (F32 o)) (@to_rgb_true f32 (F32 o)) h p (bytes_back HSL (IZR r) (IZR g) bb (r <> 0 \/ g <> 0 \/ b <> 0)%Z).
Proof.
  destruct bb_byte. eapply byte_via; try (apply byteR; assumption); [|pose proof (byteR b Hb); lra|disp|disp|apply rgb_deep_to_hsl_ok|apply hsl_to_rgb_deep_ok].
  intros c1 x y z W1 C1 Vx Vy Vz. pose proof (hsl_trip o c1 x y z W1 C1) as T. rewrite Vx, Vy, Vz in T. do 3 eexists. split; [eapply trip_weaken; [exact T|num|]|].
  - pose proof (mx3_ge (q255 r) (q255 g) (q255 b)).
    assert (P : forall n, (0 <= n <= 255)%Z -> n <> 0%Z -> 8 * u <= q255 n).
    { intros n Hn NZ. assert (1 <= IZR n) by (apply (IZR_le 1); lia). destruct (q255_near n Hn) as [K _]. apply Rabs_le_inv in K. num. }
    intros [N|[N|N]]; [pose proof (P _ Hr N)|pose proof (P _ Hg N)|pose proof (P _ Hb N)]; lra.
  - split; [apply qn, Hr|]. split; [apply qn, Hg|]. eapply Rle_trans; [apply bb_near; assumption|num].
Qed.
Lemma bytes_cmyk : via (@to_cmyk f32 (F32 o)) (@to_rgb_true f32 (F32 o)) h p (bytes_back CMYK (IZR r) (IZR g) (IZR b) True).
Proof.
  eapply byte_via; try (apply byteR; assumption); [|disp|disp|apply rgb_deep_to_cmyk_ok|apply cmyk_to_rgb_deep_ok].
  intros c1 x y z W1 C1 Vx Vy Vz. pose proof (cmyk_trip o c1 x y z W1 C1) as T. rewrite Vx, Vy, Vz in T. do 3 eexists. split; [eapply trip_weaken; [exact T|num|auto]|].
  split; [apply qn, Hr|]. split; [apply qn, Hg|]. apply qn, Hb.
Qed.
Let s := 722 / 10000 * (bb - IZR b).
Lemma bytes_hcy : via (@to_hcy f32 (F32 o)) (@to_rgb_true f32 (F32 o)) h p (bytes_back HCY (Rmax 0 (IZR r - s)) (Rmax 0 (IZR g - s)) (Rmax 0 (bb - s)) True).
Proof.
  destruct bb_byte as [Q1 Q2]. pose proof (byteR r Hr). pose proof (byteR g Hg). pose proof (byteR b Hb).
  assert (P : forall v, v <= 255 -> 0 <= Rmax 0 (v - s) <= 255) by (intros v Hv; split; [apply Rmax_l|apply Rmax_lub; unfold s; lra]).
  eapply byte_via; try (apply P; lra); [|disp|disp|apply rgb_deep_to_hcy_ok|apply hcy_to_rgb_deep_ok].
  intros c1 x y z W1 C1 Vx Vy Vz. pose proof (hcy_trip o c1 x y z W1 C1) as T. cbv zeta in T. rewrite Vx, Vy, Vz in T. do 3 eexists. split; [eapply trip_weaken; [exact T|num|auto]|].
  pose proof (bb_near r g b Hr Hg Hb) as NB. fold bb in NB. set (qq := blue_back (q255 r) (q255 g) (q255 b)) in * .
  destruct (q255_near r Hr) as [Nr _]. destruct (q255_near g Hg) as [Ng _]. destruct (q255_near b Hb) as [Nb _].
  apply Rabs_le_inv in NB, Nr, Ng, Nb.
  assert (Z : forall v w, - (11 / 10 * u) <= v - w / 255 <= 11 / 10 * u -> Rabs (Rmax 0 (v - 722 / 10000 * (qq - q255 b)) - Rmax 0 (w - s) / 255) <= 10 * u).
  { intros v w K. replace (Rmax 0 (w - s) / 255) with (Rmax 0 ((w - s) / 255)) by (unfold Rmax; destruct (Rle_dec _ _), (Rle_dec _ _); lra).
    apply max_lip; [rewrite Rminus_diag_eq, Rabs_R0 by reflexivity; num|]. apply Rabs_le. unfold s. num. }
  split; [apply Z, Nr|]. split; [apply Z, Ng|apply Z, NB].
Qed.
End Bytes.
End E.
