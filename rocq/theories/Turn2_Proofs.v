(** * Turning the hue of 8-bit colours in binary32 *)
From Coq Require Import ZArith QArith Reals Lra Lia List Bool.
From Flocq Require Import Core IEEE754.BinarySingleNaN.
From Verif Require Import Arith Outcome ColorModel GammaModel MatrixModel SpaceModel Heap Converter Combine F32 F32Facts RArith
  Spec Spec32 Laws NormalForms Alpha8 Core_Proofs Core2_Proofs Core3_Proofs Core4_Proofs Hue32 Spec_Matrix Spec_Conv Spec_Round Spec_Formula Spec_Turn
  Conv_Proofs Conv2_Proofs Run_Proofs HueR_Proofs Round_Proofs Round2_Proofs Error_Proofs Error2_Proofs Error3_Proofs Error4_Proofs Error5_Proofs Spec_Error Error7_Proofs
  Formula_Proofs Turn_Proofs.
Import ListNotations.
Local Open Scope R_scope.
Local Notation fin x := (is_finite x = true).

Section E.
Context (o : oracle).
Local Notation "x +. y" := (@fadd f32 (F32 o) x y) (at level 50, left associativity).
Local Notation "x -. y" := (@fsub f32 (F32 o) x y) (at level 50, left associativity).
Local Notation "x *. y" := (@fmul f32 (F32 o) x y) (at level 40, left associativity).
Local Notation "x /. y" := (@fdiv f32 (F32 o) x y) (at level 40, left associativity).
Local Notation "$ n" := (fz (H := F32 o) n) (at level 2).

(** ** From HSL to RGB, for any error of the hue *)
Lemma helper_close (h s l : f32) H S L e eh n : near h H eh -> 0 <= eh <= 1 -> 0 <= fval h <= 359 -> 0 <= H <= 359 ->
  near s S e -> 0 <= e <= 1 -> Rmin L (1 - L) * e <= 8 * u -> near l L (21 / 10 * u) -> 0 <= S <= 1 -> 0 <= L <= 1 -> (n = 0 \/ n = 4 \/ n = 8)%Z ->
  near (@hsl_to_rgb_helper f32 (F32 o) h s l $n) (hsl_to_rgb_helper (AF := RArith) H S L (IZR n)) (60 * u + eh / 30).
Proof.
  intros Nh Beh Bh BH Ns He HM Nl BS BL Hn. rewrite hsl_helper. unfold hsl_to_rgb_helper.
  destruct (angle o h H eh n 30 Nh Bh BH ltac:(lra) ltac:(lia) ltac:(lia)) as [T P].
  replace (2 * (H / 60)) with (H / 30) by field.
  set (t := $n +. (h /. $30)) in * . set (T0 := IZR n + H / 30) in * .
  pose proof (near_range _ _ _ T) as RT. assert (BT : 0 <= T0 <= 20) by (unfold T0; destruct Hn as [->|[->| ->]]; lra).
  destruct (fmod_once o t 12 (proj1 T) ltac:(lia)) as [Fk Vk]; [num|].
  set (k := @ffmod f32 (F32 o) t $12) in * .
  assert (Bk : 0 <= fval k <= 12).
  { rewrite Vk. destruct (Rlt_le_dec (fval t) 12); [rewrite Rfmod_0 by lra|rewrite Rfmod_1 by num]; num. }
  assert (S3 : near (k -. $3) (fval k - 3) (91 / 10 * u)).
  { eapply near_weaken; [apply (near_sub o k $3 (fval k) 3 0 0 9)|]; [apply near_self, Fk|apply near_fz; sm|apply Rabs_le; lra|lra|num]. }
  assert (S9 : near ($9 -. k) (9 - fval k) (91 / 10 * u)).
  { eapply near_weaken; [apply (near_sub o $9 k 9 (fval k) 0 0 9)|]; [apply near_fz; sm|apply near_self, Fk|apply Rabs_le; lra|lra|num]. }
  assert (P1 : near (@fmax f32 (F32 o) (@fmin f32 (F32 o) (k -. $3) (@fmin f32 (F32 o) ($9 -. k) $1)) $(-1)) (psi (fval k)) (91 / 10 * u)).
  { unfold psi. apply near_max; [apply near_min; [exact S3|apply near_min; [exact S9|]]|];
      eapply near_weaken; try (apply near_fz; sm); num. }
  assert (P2 : near (@fmax f32 (F32 o) (@fmin f32 (F32 o) (k -. $3) (@fmin f32 (F32 o) ($9 -. k) $1)) $(-1)) (psi (Rfmod T0 12)) (44 * u + eh / 30)).
  { eapply near_weaken; [eapply near_move; [exact P1|]|].
    - rewrite Vk. apply (psi_mod (fval t) T0 (eh / 30 + 34 * u)); [num|lra|exact (proj2 T)|num].
    - num. }
  set (f := @fmax f32 (F32 o) _ _) in * . pose proof (psi_unit (Rfmod T0 12)) as BF. set (ph := psi (Rfmod T0 12)) in * .
  assert (NL : near ($1 -. l) (1 - L) (32 / 10 * u)).
  { eapply near_weaken; [apply (near_sub o $1 l 1 L 0 (21 / 10 * u) 1 (near_one o) Nl)|]; [apply Rabs_le; lra|num|num]. }
  assert (NM : near (@fmin f32 (F32 o) l ($1 -. l)) (Rmin L (1 - L)) (32 / 10 * u)).
  { apply near_min; [eapply near_weaken; [exact Nl|num]|exact NL]. }
  assert (BM : 0 <= Rmin L (1 - L) <= 1 / 2).
  { unfold Rmin. destruct (Rle_dec L (1 - L)); lra. }
  set (M := Rmin L (1 - L)) in * .
  assert (BSM : 0 <= S * M <= 1 / 2). { split; [apply Rmult_le_pos; lra|]. rewrite <- (Rmult_1_l (1 / 2)). apply Rmult_le_compat; lra. }
  assert (NA : near (s *. @fmin f32 (F32 o) l ($1 -. l)) (S * M) (151 / 10 * u)).
  { eapply near_weaken; [apply (near_mul o _ _ _ _ _ _ 1 M (1 / 2) Ns NM)|]; try (apply Rabs_le; lra); num. }
  assert (AP : Rabs (S * M * ph) <= 1 / 2).
  { rewrite Rabs_mult, (Rabs_pos_eq (S * M)) by lra. rewrite <- (Rmult_1_r (1 / 2)). apply Rmult_le_compat; try lra; [apply Rabs_pos|apply Rabs_le; lra]. }
  assert (NP : near (s *. @fmin f32 (F32 o) l ($1 -. l) *. f) (S * M * ph) (41 * u + eh / 40)).
  { eapply near_weaken; [apply (near_mul o _ _ _ _ _ _ (1 / 2) 1 (1 / 2) NA P2)|]; try exact AP; try (apply Rabs_le; lra); num. }
  cbv zeta. fold k. fold f. apply Rabs_le_inv in AP.
  eapply near_weaken; [apply (near_sub o l _ L (S * M * ph) (21 / 10 * u) (41 * u + eh / 40) 2 Nl NP)|]; try (apply Rabs_le; lra); num.
Qed.

(** ** Saturation and lightness *)
Section Parts.
Variables (c : color f32) (r g b : f32).
Hypothesis (W : @wf_color f32 (F32 o) RGB_DEEP c) (Ec : comps c = [r; g; b]).
Let R := fval r. Let G := fval g. Let B := fval b.
Let mx := @fmax f32 (F32 o) (@fmax f32 (F32 o) r g) b.
Let mn := @fmin f32 (F32 o) (@fmin f32 (F32 o) r g) b.
Let D := mx3 R G B - mn3 R G B.
Let L := (mx3 R G B + mn3 R G B) / 2.
Let lf := @lit f32 (F32 o) (1 # 2) *. (mx +. mn).
Let M := Rmin L (1 - L).
Let den := $1 -. @fabs f32 (F32 o) ($2 *. lf -. $1).
Let sat := if @feq f32 (F32 o) lf $0 || @feq f32 (F32 o) lf $1 then $0 else (mx -. mn) /. den.
Lemma sat_close : 32 * u < M -> exists S e, near (@c01 f32 (F32 o) sat) S e /\ 0 <= e <= 1 /\ M * e <= 8 * u /\ 0 <= S <= 1 /\ S * M = D / 2.
Proof.
  intros C. destruct (chan_mx o c r g b W Ec) as [Fx Vx]. destruct (chan_mn o c r g b W Ec) as [Fn Vn].
  destruct (chan_range o c r g b W Ec) as [B0 [B1 BD]]. destruct (fz_val o 0) as [F0 V0]; [sm|].
  fold mx in Fx, Vx. fold mn in Fn, Vn. fold R G B in Vx, Vn, B0, B1, BD.
  destruct (Error5_Proofs.lightness o c r g b W Ec) as [NL BL]. pose proof (den_close o c r g b W Ec) as ND.
  fold mx mn in NL, ND. fold R G B in NL, ND, BL. fold lf in NL, ND. fold L in NL, ND, BL. fold M in ND. fold den in ND.
  assert (Ml : D / 2 <= M) by (unfold M; apply Rmin_glb; unfold L, D; lra).
  assert (Z0 : 0 < L - 32 * u /\ L + 32 * u < 1). { unfold M in C. pose proof (Rmin_l L (1 - L)). pose proof (Rmin_r L (1 - L)). lra. }
  pose proof (near_range _ _ _ NL) as RL.
  destruct (fz_val o 1) as [F1 V1]; [sm|].
  unfold sat. rewrite (ne_val o lf $0), (ne_val o lf $1) by (try apply (proj1 NL); auto; rewrite ?V0, ?V1; num). cbn [orb].
  assert (NDel : near (mx -. mn) D (11 / 10 * u)).
  { unfold D. rewrite <- Vx, <- Vn in * . eapply near_weaken; [apply (near_sub o mx mn _ _ 0 0 1 (near_self mx Fx) (near_self mn Fn))|]; try (apply Rabs_le; lra); num. }
  assert (M1 : M <= 1 / 2). { unfold M, Rmin. destruct (Rle_dec L (1 - L)); lra. }
  exists (D / (2 * M)), (4 / 3 * (11 / 10 * u + 86 / 10 * u) / (2 * M) + 2 * u).
  assert (Mp : 0 < M) by num. assert (D0 : 0 <= D) by (unfold D; lra).
  assert (Q : 0 <= D / (2 * M) <= 1) by (apply div_bounds; lra).
  assert (Q2 : 0 <= 4 / 3 * (11 / 10 * u + 86 / 10 * u) / (2 * M) <= 1 / 4) by (apply div_bounds; num).
  split; [apply near_01; [apply near_ratio; auto; num|num|exact Q]|]. split; [num|]. split; [|split; [exact Q|field; lra]].
  replace (M * (4 / 3 * (11 / 10 * u + 86 / 10 * u) / (2 * M) + 2 * u)) with (4 / 3 * (11 / 10 * u + 86 / 10 * u) / 2 + M * (2 * u)) by (field; lra).
  assert (M * (2 * u) <= 1 / 2 * (2 * u)) by (apply Rmult_le_compat_r; [num|exact M1]). num.
Qed.
End Parts.

(** ** The hue after turning *)
Lemma near_turn (hue w : f32) H E j k T : near hue H E -> 0 <= E <= 1 / 100 -> 0 <= H <= 359 -> fin w -> fval w = 60 * IZR j -> (1 <= j <= 5)%Z ->
  (forall i : Z, H = 60 * IZR i \/ 60 / 255 <= Rabs (H - 60 * IZR i)) -> (forall i : Z, H = 60 * IZR i -> fval hue = H) ->
  T = H + 60 * IZR j - 360 * IZR k -> 0 <= T <= 359 -> near (@hue_norm f32 (F32 o) (hue +. w)) T (E + 800 * u).
Proof.
  intros N HE BH Fw Vw Hj Grid Exact ET BT. assert (Bj : 1 <= IZR j <= 5) by (split; [apply (IZR_le 1)|apply (IZR_le j 5)]; lia).
  assert (NV : near (hue +. w) (H + 60 * IZR j) (E + 701 * u)).
  { eapply near_weaken; [apply (near_add o hue w H (60 * IZR j) E 0 700 N)|]; [rewrite <- Vw; apply near_self, Fw|apply Rabs_le; lra|lra|num]. }
  pose proof (near_range _ _ _ NV) as RV. pose proof (near_range _ _ _ N) as RN.
  assert (VV : fval (hue +. w) = rnd32 (fval hue + 60 * IZR j)).
  { destruct (Bplus_ok hue w (-10) 700 (proj1 N) Fw) as [_ V]; try sm; [rewrite Vw; lra|]. rewrite <- Vw. exact V. }
  destruct (hue_norm32 o (hue +. w) (proj1 NV)) as [k' [m [Ev [Bm [[Fh Vh] Rm]]]]]. specialize (Rm ltac:(num)). rewrite Rm in Vh. change (@B2R 24 128) with fval in * .
  assert (Hk : (k = 0 \/ k = 1)%Z). { assert (-1 < k < 2)%Z; [|lia]. split; apply lt_IZR; lra. }
  assert (K : k' = k).
  { destruct Hk as [-> | ->].
    - assert (-1 < k' < 1)%Z; [|lia]. split; apply lt_IZR; num.
    - assert (360 <= fval (hue +. w)).
      { destruct (Grid (6 - j)%Z) as [G|G]; rewrite minus_IZR in G.
        - specialize (Exact (6 - j)%Z). rewrite minus_IZR in Exact. specialize (Exact G). rewrite VV, Exact, G. replace (60 * (6 - IZR j) + 60 * IZR j) with (IZR 360) by ring.
          rewrite rnd32_int by sm. lra.
        - rewrite Rabs_pos_eq in G by lra. num. }
      assert (0 < k' < 2)%Z; [|lia]. split; apply lt_IZR; num. }
  subst k'. split; [exact Fh|]. rewrite Vh. assert (Em : m = fval (hue +. w) - 360 * IZR k) by lra.
  destruct NV as [_ NV]. apply Rabs_le_inv in NV. apply Rabs_le. unfold Rmin. destruct (Rle_dec m 359); num.
Qed.

(** ** Order-preserving maps of bytes *)
Definition rise (f : Z -> R) : Prop := forall m n, is_byte m -> is_byte n -> (m < n)%Z -> f m < f n.
Definition zmax (r g b : Z) : Z := Z.max r (Z.max g b).
Definition zmin (r g b : Z) : Z := Z.min r (Z.min g b).
Lemma rise_max f m n : rise f -> is_byte m -> is_byte n -> Rmax (f m) (f n) = f (Z.max m n).
Proof.
  intros Hf Hm Hn. destruct (Z.lt_trichotomy m n) as [L|[L|L]].
  - rewrite Rmax_right, Z.max_r by (try lia; left; apply Hf; assumption). reflexivity.
  - subst. rewrite Rmax_left, Z.max_id by lra. reflexivity.
  - rewrite Rmax_left, Z.max_l by (try lia; left; apply Hf; assumption). reflexivity.
Qed.
Lemma rise_min f m n : rise f -> is_byte m -> is_byte n -> Rmin (f m) (f n) = f (Z.min m n).
Proof.
  intros Hf Hm Hn. destruct (Z.lt_trichotomy m n) as [L|[L|L]].
  - rewrite Rmin_left, Z.min_l by (try lia; left; apply Hf; assumption). reflexivity.
  - subst. rewrite Rmin_left, Z.min_id by lra. reflexivity.
  - rewrite Rmin_right, Z.min_r by (try lia; left; apply Hf; assumption). reflexivity.
Qed.
Lemma byte_max m n : is_byte m -> is_byte n -> is_byte (Z.max m n).
Proof. unfold is_byte. lia. Qed.
Lemma byte_min m n : is_byte m -> is_byte n -> is_byte (Z.min m n).
Proof. unfold is_byte. lia. Qed.
Lemma rise_largest f r g b : rise f -> is_byte r -> is_byte g -> is_byte b -> largest (f r) (f g) (f b) = f (zmax r g b).
Proof. intros. unfold largest, zmax. rewrite !rise_max; auto using byte_max. Qed.
Lemma rise_smallest f r g b : rise f -> is_byte r -> is_byte g -> is_byte b -> smallest (f r) (f g) (f b) = f (zmin r g b).
Proof. intros. unfold smallest, zmin. rewrite !rise_min; auto using byte_min. Qed.
Lemma rise_eq f m n : rise f -> is_byte m -> is_byte n -> f m = f n -> m = n.
Proof. intros Hf Hm Hn E. destruct (Z.lt_trichotomy m n) as [L|[L|L]]; auto; apply Hf in L; auto; lra. Qed.

(** The hue, by a base and the quotient of two differences: 60 (base + (f p - f q) / (f max - f min)). *)
Definition hue_case (r g b : Z) : Z * Z * Z :=
  if (r =? zmax r g b)%Z then (if (g <? b)%Z then (6, g, b) else (0, g, b))%Z
  else if (g =? zmax r g b)%Z then (2, b, r)%Z else (4, r, g)%Z.
Lemma hue_rise f r g b : rise f -> is_byte r -> is_byte g -> is_byte b -> zmin r g b <> zmax r g b ->
  let '(a, p, q) := hue_case r g b in hexagon_hue (f r) (f g) (f b) = 60 * (IZR a + (f p - f q) / (f (zmax r g b) - f (zmin r g b))).
Proof.
  intros Hf Hr Hg Hb NE. assert (Bx : is_byte (zmax r g b)) by (apply byte_max; auto using byte_max). assert (Bn : is_byte (zmin r g b)) by (apply byte_min; auto using byte_min).
  assert (Df : f (zmin r g b) < f (zmax r g b)) by (apply Hf; auto; unfold zmin, zmax in *; lia).
  unfold hue_case, hexagon_hue. cbv zeta. rewrite rise_largest, rise_smallest by assumption.
  destruct (Req_EM_T _ 0) as [E|_]; [lra|].
  destruct (Z.eqb_spec r (zmax r g b)) as [E|E].
  - destruct (Req_EM_T (f r) _) as [_|N]; [|destruct N; rewrite <- E; reflexivity].
    destruct (Z.ltb_spec g b) as [L|L].
    + destruct (Rlt_dec (f g) (f b)) as [_|N]; [field; lra|destruct N; apply Hf; assumption].
    + destruct (Rlt_dec (f g) (f b)) as [N|_]; [|field; lra]. exfalso. destruct (Z.eq_dec g b) as [->|NE']; [lra|]. assert (f b < f g) by (apply Hf; auto; lia). lra.
  - destruct (Req_EM_T (f r) _) as [N|_]; [destruct E; apply (rise_eq f); assumption|].
    destruct (Z.eqb_spec g (zmax r g b)) as [E'|E'].
    + destruct (Req_EM_T (f g) _) as [_|N]; [|destruct N; rewrite <- E'; reflexivity]. field. lra.
    + destruct (Req_EM_T (f g) _) as [N|_]; [destruct E'; apply (rise_eq f); assumption|]. field. lra.
Qed.
Lemma hue_case_range r g b : is_byte r -> is_byte g -> is_byte b -> let '(a, p, q) := hue_case r g b in
  (p = r \/ p = g \/ p = b) /\ (q = r \/ q = g \/ q = b) /\ (0 <= a <= 6)%Z.
Proof. intros. unfold hue_case. destruct (_ =? _)%Z; [destruct (_ <? _)%Z|destruct (_ =? _)%Z]; lia. Qed.

Lemma rise_IZR : rise IZR. Proof. intros m n _ _ L. apply IZR_lt, L. Qed.
Lemma rise_q255 : rise q255.
Proof.
  intros n m Hn Hm L. destruct (q255_near n Hn) as [N1 _]. destruct (q255_near m Hm) as [M1 _]. apply Rabs_le_inv in N1, M1.
  assert (IZR n + 1 <= IZR m) by (rewrite <- plus_IZR; apply IZR_le; lia). num.
Qed.
Lemma quot_move a d a' d' : Rabs (a' - a) <= 22 / 10 * u -> Rabs (d' - d) <= 22 / 10 * u -> - d <= a <= d -> 1 / 255 <= d -> Rabs (a' / d' - a / d) <= 1200 * u.
Proof.
  intros Ha Hd Ba Bd. assert (Q : -1 <= a / d <= 1) by (apply div_bounds; lra). pose proof (Rabs_le_inv _ _ Hd) as Hd'.
  assert (P : / 256 <= d') by num. replace (a' / d' - a / d) with (((a' - a) + a / d * (d - d')) / d') by (field; lra).
  unfold Rdiv at 1. rewrite Rabs_mult, (Rabs_pos_eq (/ d')) by (left; apply Rinv_0_lt_compat; lra).
  apply Rle_trans with (44 / 10 * u * 256); [|num]. apply Rmult_le_compat; [apply Rabs_pos|left; apply Rinv_0_lt_compat; lra| |].
  - apply Rle_trans with (1 := Rabs_triang _ _). replace (44 / 10 * u) with (22 / 10 * u + 1 * (22 / 10 * u)) by field. apply Rplus_le_compat; [exact Ha|].
    rewrite Rabs_mult. apply Rmult_le_compat; try apply Rabs_pos; [apply Rabs_le; lra|rewrite Rabs_minus_sym; exact Hd].
  - rewrite <- (Rinv_inv 256) at 1. apply Rinv_le_contravar; lra.
Qed.
Lemma hue_move r g b : is_byte r -> is_byte g -> is_byte b -> zmin r g b <> zmax r g b ->
  Rabs (hexagon_hue (q255 r) (q255 g) (q255 b) - hexagon_hue (IZR r) (IZR g) (IZR b)) <= 72000 * u.
Proof.
  intros Hr Hg Hb NE. pose proof (hue_rise q255 r g b rise_q255 Hr Hg Hb NE) as E1. pose proof (hue_rise IZR r g b rise_IZR Hr Hg Hb NE) as E2.
  pose proof (hue_case_range r g b Hr Hg Hb) as CR. destruct (hue_case r g b) as [[a p] q]. rewrite E1, E2. clear E1 E2. destruct CR as [Hp [Hq _]].
  assert (Bx : is_byte (zmax r g b)) by (apply byte_max; auto using byte_max). assert (Bn : is_byte (zmin r g b)) by (apply byte_min; auto using byte_min).
  assert (Bp : is_byte p) by (destruct Hp as [->|[->| ->]]; assumption). assert (Bq : is_byte q) by (destruct Hq as [->|[->| ->]]; assumption).
  assert (Rp : (zmin r g b <= p <= zmax r g b)%Z) by (unfold zmin, zmax; destruct Hp as [->|[->| ->]]; lia).
  assert (Rq : (zmin r g b <= q <= zmax r g b)%Z) by (unfold zmin, zmax; destruct Hq as [->|[->| ->]]; lia).
  set (x := zmax r g b) in * . set (n := zmin r g b) in * . clearbody x n.
  assert (L : IZR n + 1 <= IZR x) by (rewrite <- plus_IZR; apply IZR_le; lia).
  destruct Rp as [Rp1 Rp2]. destruct Rq as [Rq1 Rq2]. apply IZR_le in Rp1, Rp2, Rq1, Rq2.
  replace ((IZR p - IZR q) / (IZR x - IZR n)) with ((IZR p / 255 - IZR q / 255) / (IZR x / 255 - IZR n / 255)) by (field; lra).
  match goal with |- Rabs (60 * (IZR a + ?X) - 60 * (IZR a + ?Y)) <= _ => replace (60 * (IZR a + X) - 60 * (IZR a + Y)) with (60 * (X - Y)) by ring end.
  rewrite Rabs_mult, (Rabs_pos_eq 60) by lra. replace (72000 * u) with (60 * (1200 * u)) by ring. apply Rmult_le_compat_l; [lra|].
  destruct (q255_near p Bp) as [N1 _]. destruct (q255_near q Bq) as [N2 _]. destruct (q255_near x Bx) as [N3 _]. destruct (q255_near n Bn) as [N4 _]. apply Rabs_le_inv in N1, N2, N3, N4.
  apply quot_move; try (apply Rabs_le); lra.
Qed.

(** The hue is a multiple of 60 degrees or at least 60/255 degrees away. *)
Lemma hue_grid r g b : is_byte r -> is_byte g -> is_byte b -> zmin r g b <> zmax r g b -> forall i : Z,
  hexagon_hue (IZR r) (IZR g) (IZR b) = 60 * IZR i \/ 60 / 255 <= Rabs (hexagon_hue (IZR r) (IZR g) (IZR b) - 60 * IZR i).
Proof.
  intros Hr Hg Hb NE i. pose proof (hue_rise IZR r g b rise_IZR Hr Hg Hb NE) as E2. destruct (hue_case r g b) as [[a p] q]. rewrite E2. clear E2.
  assert (Bx : is_byte (zmax r g b)) by (apply byte_max; auto using byte_max). assert (Bn : is_byte (zmin r g b)) by (apply byte_min; auto using byte_min).
  assert (LE : (zmin r g b < zmax r g b)%Z) by (unfold zmin, zmax in *; lia). set (x := zmax r g b) in * . set (n := zmin r g b) in * . clearbody x n.
  assert (L : 1 <= IZR (x - n) <= 255) by (destruct Bx, Bn; split; [apply (IZR_le 1)|apply (IZR_le _ 255)]; lia).
  rewrite <- !minus_IZR. destruct (Z.eq_dec ((a - i) * (x - n) + (p - q)) 0) as [E|E].
  - left. apply (f_equal IZR) in E. rewrite plus_IZR, mult_IZR, (minus_IZR a i) in E. apply (Rmult_eq_reg_r (IZR (x - n))); [|lra].
    replace (60 * (IZR a + IZR (p - q) / IZR (x - n)) * IZR (x - n)) with (60 * (IZR a * IZR (x - n) + IZR (p - q))) by (field; lra). lra.
  - right. replace (60 * (IZR a + IZR (p - q) / IZR (x - n)) - 60 * IZR i) with (60 * (IZR ((a - i) * (x - n) + (p - q)) * / IZR (x - n))).
    2:{ rewrite plus_IZR, mult_IZR, (minus_IZR a i). field. lra. }
    rewrite !Rabs_mult, (Rabs_pos_eq 60), (Rabs_pos_eq (/ _)) by (try lra; left; apply Rinv_0_lt_compat; lra). unfold Rdiv. apply Rmult_le_compat_l; [lra|].
    rewrite <- (Rmult_1_l (/ 255)). apply Rmult_le_compat; try lra.
    + rewrite <- abs_IZR. apply (IZR_le 1). lia.
    + apply Rinv_le_contravar; lra.
Qed.
End E.
