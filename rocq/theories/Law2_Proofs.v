(** * Laws of sums and mixtures in exact arithmetic and in binary32 (C203, C204) *)
From Coq Require Import ZArith QArith Reals Lra Lia List Bool.
From Flocq Require Import Core IEEE754.BinarySingleNaN Sterbenz.
From Verif Require Import Arith Outcome ColorModel GammaModel MatrixModel SpaceModel Heap Converter Calculation F32 F32Facts RArith
  Spec Spec32 Laws NormalForms Alpha8 Core_Proofs Core2_Proofs Core3_Proofs Core4_Proofs Hue32 Spec_Matrix Spec_Conv Spec_Calc Spec_Round
  Conv_Proofs Conv2_Proofs Conv3_Proofs Run_Proofs Round_Proofs Round2_Proofs Error_Proofs Error2_Proofs Error4_Proofs Error5_Proofs Error7_Proofs Error8_Proofs Spec_Error
  Calc_Proofs Calc2_Proofs Calc3_Proofs Spec_Formula Spec_Sum Spec_Rank Spec_Mix Byte3_Proofs Rank_Proofs Tame_Proofs Mix_Proofs Sum_Proofs Mirror_Proofs Spec_Law Law_Proofs.
Import ListNotations.
Local Open Scope R_scope.

Local Notation fin x := (is_finite x = true).
Local Notation fval := (@B2R 24 128).

(** ** Exchange *)
Lemma exchange_exact : forall X w1 w2 ia (h : heap R) p1 p2 c1 c2, In X own_types -> 0 <= w1 <= 1 -> 0 <= w2 <= 1 ->
  at_addr h p1 c1 -> at_addr h p2 c2 -> wf_color X c1 -> wf_color X c2 ->
  agree ia (typed_add X (Some p1) (Some p2) w1 w2 ia) (typed_add X (Some p2) (Some p1) w2 w1 ia) h.
Proof.
  intros X w1 w2 ia h p1 p2 c1 c2 P I1 I2 H1 H2 W1 W2. apply (add_exchange (AF := RArith) (fun x y => Rplus_comm x y) X w1 w2 ia h p1 p2 c1 c2); try assumption; apply bad_weightR; assumption.
Qed.
Lemma exchange_32 : forall o X w1 w2 ia (h : heap f32) p1 p2 c1 c2, In X own_types -> in_interval 0 1 w1 -> in_interval 0 1 w2 ->
  at_addr h p1 c1 -> at_addr h p2 c2 -> @wf_color f32 (F32 o) X c1 -> @wf_color f32 (F32 o) X c2 ->
  agree ia (@typed_add f32 (F32 o) X (Some p1) (Some p2) w1 w2 ia) (@typed_add f32 (F32 o) X (Some p2) (Some p1) w2 w1 ia) h.
Proof.
  intros o X w1 w2 ia h p1 p2 c1 c2 P I1 I2 H1 H2 W1 W2.
  apply (add_exchange (AF := F32 o) Bplus_comm_all X w1 w2 ia h p1 p2 c1 c2); try assumption; apply weight_ok; assumption.
Qed.
Lemma mix_exchange_exact : forall X w ia (h : heap R) p1 p2 c1 c2, In X own_types -> 0 <= w <= 1 ->
  at_addr h p1 c1 -> at_addr h p2 c2 -> wf_color X c1 -> wf_color X c2 ->
  agree ia (typed_mix X (Some p1) (Some p2) w ia) (typed_mix X (Some p2) (Some p1) (1 - w) ia) h.
Proof.
  intros X w ia h p1 p2 c1 c2 P I H1 H2 W1 W2. rewrite !(typed_mix_eq (AF := RArith)) by (apply bad_weightR; lra).
  assert (E : forall v, fsub (fz 1) v = 1 - v) by (intros v; change (fsub (fz 1) v) with (@fz R RArith 1 - v); rewrite fzR; reflexivity).
  rewrite !E. replace (1 - (1 - w)) with w by ring. apply (exchange_exact X w (1 - w) ia h p1 p2 c1 c2); try assumption; lra.
Qed.

Section B32.
Variable o : oracle.
Local Notation "$ n" := (@fz f32 (F32 o) n) (at level 0, format "$ n").
Local Notation "x -. y" := (@fsub f32 (F32 o) x y) (at level 50, left associativity).

Lemma rest_rest w : in_interval 0 1 w -> / 2 <= fval w -> $1 -. ($1 -. w) = w /\ in_interval 0 1 ($1 -. w).
Proof.
  intros [F B] L. change (@B2R 24 128) with fval in B. destruct (fz_val o 1) as [F1 V1]; [sm|].
  destruct (Bminus_ok $1 w 0 1 F1 F) as [Fd Vd]; try sm; [rewrite V1; lra|]. change ($1 -. w) with (Bminus mode_NE $1 w).
  assert (X : fval (Bminus mode_NE $1 w) = 1 - fval w).
  { rewrite Vd, V1. apply round_generic; [apply valid_rnd_N|].
    change (1 - fval w) with (IZR 1 - fval w). rewrite <- V1. apply (sterbenz radix2 (SpecFloat.fexp 24 128)); [apply generic_format_B2R|apply generic_format_B2R|rewrite V1; lra]. }
  split; [|split; [exact Fd|change (@B2R 24 128) with fval; rewrite X; lra]].
  set (v := Bminus mode_NE $1 w) in *. clearbody v. change ($1 -. v) with (Bminus mode_NE $1 v).
  destruct (Bminus_ok $1 v 0 1 F1 Fd) as [Fe Ve]; try sm; [rewrite V1, X; lra|].
  rewrite V1, X in Ve. replace (IZR 1 - (1 - fval w)) with (fval w) in Ve by lra. rewrite rnd32_id in Ve.
  set (z := Bminus mode_NE $1 v) in *. clearbody z.
  assert (S : forall y : f32, fin y -> fval y <> 0 -> is_finite_strict y = true) by (intros [s|s| |s m e b] Fy N; try reflexivity; try discriminate Fy; exfalso; apply N; reflexivity).
  apply B2R_inj; [apply S; [exact Fe|lra]|apply S; [exact F|lra]|exact Ve].
Qed.
Lemma mix_exchange_32 : forall X w ia (h : heap f32) p1 p2 c1 c2, In X own_types -> in_interval 0 1 w -> / 2 <= B2R w ->
  at_addr h p1 c1 -> at_addr h p2 c2 -> @wf_color f32 (F32 o) X c1 -> @wf_color f32 (F32 o) X c2 ->
  agree ia (@typed_mix f32 (F32 o) X (Some p1) (Some p2) w ia) (@typed_mix f32 (F32 o) X (Some p2) (Some p1) ($1 -. w) ia) h.
Proof.
  intros X w ia h p1 p2 c1 c2 P I L H1 H2 W1 W2. destruct (rest_rest w I L) as [E J].
  rewrite !(typed_mix_eq (AF := F32 o)) by (apply weight_ok; assumption). rewrite E. apply (exchange_32 o X w _ ia h p1 p2 c1 c2); assumption.
Qed.

(** ** Order *)
Definition le32 (x y : f32) : Prop := fin x /\ fin y /\ fval x <= fval y.

Lemma scaled w a T : in_interval 0 1 w -> fin a -> Rabs (fval a) <= T -> T <= 65536 ->
  fin (@fmul f32 (F32 o) w a) /\ fval (@fmul f32 (F32 o) w a) = rnd32 (fval w * fval a) /\ Rabs (fval (@fmul f32 (F32 o) w a)) <= 65536 /\ (0 <= fval a -> 0 <= fval (@fmul f32 (F32 o) w a)).
Proof.
  intros [Fw Bw] Fa Ba HT. change (@B2R 24 128) with fval in Bw. apply Rabs_le_inv in Ba.
  assert (M : -65536 <= fval w * fval a <= 65536).
  { split.
    - apply Rle_trans with (fval w * -65536); [lra|]. apply Rmult_le_compat_l; lra.
    - apply Rle_trans with (fval w * 65536); [apply Rmult_le_compat_l; lra|lra]. }
  destruct (Bmult_ok w a (-65536) 65536 Fw Fa) as [F V]; try sm; [exact M|]. change (@fmul f32 (F32 o) w a) with (Bmult mode_NE w a).
  split; [exact F|]. split; [exact V|]. rewrite V. split; [apply Rabs_le; apply (rnd32_bounds _ (-65536) 65536); try sm; exact M|].
  intros Pa. rewrite <- rnd32_0. apply rnd32_le. apply Rmult_le_pos; lra.
Qed.
Lemma summed w1 w2 a b : in_interval 0 1 w1 -> in_interval 0 1 w2 -> fin a -> fin b -> Rabs (fval a) <= 65536 -> Rabs (fval b) <= 65536 ->
  fin (@add_lin f32 (F32 o) w1 w2 a b) /\ fval (@add_lin f32 (F32 o) w1 w2 a b) = rnd32 (rnd32 (fval w1 * fval a) + rnd32 (fval w2 * fval b)) /\
  (0 <= fval a -> 0 <= fval b -> 0 <= fval (@add_lin f32 (F32 o) w1 w2 a b)).
Proof.
  intros I1 I2 Fa Fb Ba Bb. destruct (scaled w1 a _ I1 Fa Ba) as [F1 [V1 [R1 N1]]]; [lra|]. destruct (scaled w2 b _ I2 Fb Bb) as [F2 [V2 [R2 N2]]]; [lra|].
  unfold add_lin. set (x := @fmul f32 (F32 o) w1 a) in *. set (y := @fmul f32 (F32 o) w2 b) in *. clearbody x y.
  apply Rabs_le_inv in R1. apply Rabs_le_inv in R2.
  destruct (Bplus_ok x y (-131072) 131072 F1 F2) as [F V]; try sm; [lra|]. change (@fadd f32 (F32 o) x y) with (Bplus mode_NE x y).
  split; [exact F|]. rewrite V, V1, V2. split; [reflexivity|]. intros A B. rewrite <- rnd32_0. apply rnd32_le. rewrite <- V1, <- V2. specialize (N1 A). specialize (N2 B). lra.
Qed.
Lemma lin_mono w1 w2 a b a' b' : in_interval 0 1 w1 -> in_interval 0 1 w2 -> le32 a a' -> le32 b b' ->
  Rabs (fval a) <= 65536 -> Rabs (fval b) <= 65536 -> Rabs (fval a') <= 65536 -> Rabs (fval b') <= 65536 ->
  le32 (@add_lin f32 (F32 o) w1 w2 a b) (@add_lin f32 (F32 o) w1 w2 a' b').
Proof.
  intros I1 I2 [Fa [Fa' La]] [Fb [Fb' Lb]] Ba Bb Ba' Bb'. destruct (summed w1 w2 a b I1 I2 Fa Fb Ba Bb) as [F [V _]]. destruct (summed w1 w2 a' b' I1 I2 Fa' Fb' Ba' Bb') as [F' [V' _]].
  split; [exact F|]. split; [exact F'|]. rewrite V, V'. destruct I1 as [_ B1]. destruct I2 as [_ B2]. change (@B2R 24 128) with fval in *.
  apply rnd32_le. apply Rplus_le_compat; apply rnd32_le; apply Rmult_le_compat_l; lra.
Qed.
Lemma sub_mono w a b a' b' : in_interval 0 1 w -> le32 a a' -> le32 b' b ->
  Rabs (fval a) <= 65536 -> Rabs (fval b) <= 65536 -> Rabs (fval a') <= 65536 -> Rabs (fval b') <= 65536 ->
  le32 (@sub_lin f32 (F32 o) w a b) (@sub_lin f32 (F32 o) w a' b').
Proof.
  intros I [Fa [Fa' La]] [Fb' [Fb Lb]] Ba Bb Ba' Bb'.
  destruct (scaled w b _ I Fb Bb) as [F2 [V2 [R2 N2]]]; [lra|]. destruct (scaled w b' _ I Fb' Bb') as [F3 [V3 [R3 N3]]]; [lra|].
  unfold sub_lin. set (x := @fmul f32 (F32 o) w b) in *. set (y := @fmul f32 (F32 o) w b') in *. clearbody x y.
  apply Rabs_le_inv in R2. apply Rabs_le_inv in R3. apply Rabs_le_inv in Ba. apply Rabs_le_inv in Ba'.
  destruct (Bminus_ok a x (-131072) 131072 Fa F2) as [F V]; try sm; [lra|]. destruct (Bminus_ok a' y (-131072) 131072 Fa' F3) as [F' V']; try sm; [lra|].
  change (@fsub f32 (F32 o) a x) with (Bminus mode_NE a x). change (@fsub f32 (F32 o) a' y) with (Bminus mode_NE a' y).
  split; [exact F|]. split; [exact F'|]. rewrite V, V'. apply rnd32_le. destruct I as [_ BI]. change (@B2R 24 128) with fval in *.
  assert (fval y <= fval x); [|lra]. rewrite V2, V3. apply rnd32_le. apply Rmult_le_compat_l; lra.
Qed.

Section Squares.
Hypotheses (AS : accurate_square o) (PO : positive_square o) (RS : rising_square o).
Lemma square_in x : fin x -> 0 <= fval x <= 255 -> fin (o_pow o x $2) /\ 0 <= fval (o_pow o x $2) <= 65536.
Proof.
  intros F B. assert (A : Rabs (fval x) <= 1024) by (rewrite Rabs_pos_eq; lra). destruct (AS x F A) as [Fp [_ E]]. split; [exact Fp|]. split; [apply (PO x F A)|].
  change (@B2R 24 128) with fval in E. apply Rabs_le_inv in E.
  assert (fval x * fval x <= 255 * 255) by (apply Rmult_le_compat; lra). lra.
Qed.
Lemma root_mono w1 w2 a b a' b' : in_interval 0 1 w1 -> in_interval 0 1 w2 -> le32 a a' -> le32 b b' ->
  0 <= fval a -> fval a' <= 255 -> 0 <= fval b -> fval b' <= 255 -> le32 (@add_root f32 (F32 o) w1 w2 a b) (@add_root f32 (F32 o) w1 w2 a' b').
Proof.
  intros I1 I2 [Fa [Fa' La]] [Fb [Fb' Lb]] Ba Ba' Bb Bb'.
  destruct (square_in a Fa) as [Sa Ra]; [lra|]. destruct (square_in b Fb) as [Sb Rb]; [lra|]. destruct (square_in a' Fa') as [Sa' Ra']; [lra|]. destruct (square_in b' Fb') as [Sb' Rb']; [lra|].
  assert (Qa : fval (o_pow o a $2) <= fval (o_pow o a' $2)) by (apply (RS a a' Fa Fa'); change (@B2R 24 128) with fval; lra).
  assert (Qb : fval (o_pow o b $2) <= fval (o_pow o b' $2)) by (apply (RS b b' Fb Fb'); change (@B2R 24 128) with fval; lra).
  unfold add_root. change (@fpow f32 (F32 o)) with (o_pow o). set (s := o_pow o a $2) in *. set (t := o_pow o b $2) in *. set (s' := o_pow o a' $2) in *. set (t' := o_pow o b' $2) in *. clearbody s t s' t'.
  change (@fadd f32 (F32 o) (@fmul f32 (F32 o) w1 s) (@fmul f32 (F32 o) w2 t)) with (@add_lin f32 (F32 o) w1 w2 s t).
  change (@fadd f32 (F32 o) (@fmul f32 (F32 o) w1 s') (@fmul f32 (F32 o) w2 t')) with (@add_lin f32 (F32 o) w1 w2 s' t').
  assert (A : forall z, 0 <= z <= 65536 -> Rabs z <= 65536) by (intros z Hz; rewrite Rabs_pos_eq; lra).
  destruct (lin_mono w1 w2 s t s' t' I1 I2) as [F [F' L]]; try (apply A; assumption); try (split; [assumption|split; assumption]).
  destruct (summed w1 w2 s t I1 I2 Sa Sb (A _ Ra) (A _ Rb)) as [_ [_ N]]. specialize (N (proj1 Ra) (proj1 Rb)).
  set (m := @add_lin f32 (F32 o) w1 w2 s t) in *. set (n := @add_lin f32 (F32 o) w1 w2 s' t') in *. clearbody m n.
  destruct (Bsqrt_ok m F N) as [Fm Vm]. destruct (Bsqrt_ok n F') as [Fn Vn]; [lra|].
  change (@fsqrt f32 (F32 o)) with (@Bsqrt 24 128 prec_gt_0_32 prec_lt_emax_32 mode_NE). split; [exact Fm|]. split; [exact Fn|]. rewrite Vm, Vn. apply rnd32_le. apply sqrt_le_1_alt. exact L.
Qed.
End Squares.

Lemma max_mono x y a b : le32 x y -> le32 a b -> le32 (@fmax f32 (F32 o) x a) (@fmax f32 (F32 o) y b).
Proof.
  intros [Fx [Fy L]] [Fa [Fb K]]. destruct (max_val o x a Fx Fa) as [F V]. destruct (max_val o y b Fy Fb) as [F' V']. split; [exact F|]. split; [exact F'|]. rewrite V, V'.
  unfold Rmax. repeat destruct (Rle_dec _ _); lra.
Qed.
Lemma min_mono x y a b : le32 x y -> le32 a b -> le32 (@fmin f32 (F32 o) x a) (@fmin f32 (F32 o) y b).
Proof.
  intros [Fx [Fy L]] [Fa [Fb K]]. destruct (min_val o x a Fx Fa) as [F V]. destruct (min_val o y b Fy Fb) as [F' V']. split; [exact F|]. split; [exact F'|]. rewrite V, V'.
  unfold Rmin. repeat destruct (Rle_dec _ _); lra.
Qed.
Lemma fz_le n : small n -> le32 $n $n.
Proof. intros S. destruct (fz_val o n S) as [F V]. split; [exact F|]. split; [exact F|lra]. Qed.
Lemma clamp_mono x y hi lo : small hi -> small lo -> le32 x y -> le32 (@clamp f32 (F32 o) x $hi $lo) (@clamp f32 (F32 o) y $hi $lo).
Proof. intros Sh Sl L. unfold clamp. apply max_mono; [apply min_mono; [exact L|]|]; apply fz_le; assumption. Qed.
Lemma range_small X i : small (fst (comp_range X i)) /\ small (snd (comp_range X i)).
Proof. destruct X; destruct i as [|[|[|i]]]; split; cbn [comp_range fst snd]; unfold small; lia. Qed.
Lemma stored_mono X i x y : le32 x y -> le32 (@stored f32 (F32 o) X i x) (@stored f32 (F32 o) X i y).
Proof.
  intros L. unfold stored. apply clamp_mono; try apply range_small. unfold pre. destruct (eight_bit X); [|exact L].
  apply min_mono; [apply max_mono; [exact L|]|]; apply fz_le; sm.
Qed.

Lemma rgb_or_linear X : In X plain_types -> In X linear_types \/ (~ In X linear_types /\ (X = RGB_TRUE \/ X = RGB_DEEP)).
Proof.
  unfold plain_types, linear_types. simpl. intros [<-|[<-|[<-|[<-|[<-|[<-|[<-|[<-|[]]]]]]]]]; auto 10; right; (split; [|auto]); intros [E|[E|[E|[E|[E|[E|[]]]]]]]; discriminate E.
Qed.
Lemma addc_linear X : In X linear_types -> @addc f32 (F32 o) X = @add_lin f32 (F32 o).
Proof. unfold linear_types. simpl. intros [<-|[<-|[<-|[<-|[<-|[<-|[]]]]]]]; reflexivity. Qed.

Lemma plain_small X i (x : f32) : In X plain_types -> IZR (fst (comp_range X i)) <= fval x <= IZR (snd (comp_range X i)) -> Rabs (fval x) <= 65536.
Proof. intros P B. pose proof (range_abs X i x P B). pose proof (reach_range X P). lra. Qed.
Lemma rgb_range X i : X = RGB_TRUE \/ X = RGB_DEEP -> IZR (fst (comp_range X i)) = 0 /\ IZR (snd (comp_range X i)) <= 255.
Proof. intros [-> | ->]; destruct i; cbn [comp_range fst snd]; lra. Qed.

Lemma add_order X w1 w2 ia ia' (h h' : heap f32) p1 p2 q1 q2 c1 c2 d1 d2 : good_squares o X -> In X plain_types -> in_interval 0 1 w1 -> in_interval 0 1 w2 ->
  at_addr h p1 c1 -> at_addr h p2 c2 -> at_addr h' q1 d1 -> at_addr h' q2 d2 ->
  @wf_color f32 (F32 o) X c1 -> @wf_color f32 (F32 o) X c2 -> @wf_color f32 (F32 o) X d1 -> @wf_color f32 (F32 o) X d2 -> below32 c1 d1 -> below32 c2 d2 ->
  ordered below32 (@typed_add f32 (F32 o) X (Some p1) (Some p2) w1 w2 ia) h (@typed_add f32 (F32 o) X (Some q1) (Some q2) w1 w2 ia') h'.
Proof.
  intros GS P I1 I2 H1 H2 K1 K2 W1 W2 V1 V2 [_ L1] [_ L2]. destruct (weight_ok o w1 I1) as [G1 _]. destruct (weight_ok o w2 I2) as [G2 _].
  destruct (add_runs (AF := F32 o) X w1 w2 ia h p1 p2 c1 c2 P G1 G2 H1 H2 W1 W2) as [q [r [g [E [A [T [Lr [_ [C _]]]]]]]]].
  destruct (add_runs (AF := F32 o) X w1 w2 ia' h' q1 q2 d1 d2 P G1 G2 K1 K2 V1 V2) as [q' [r' [g' [E' [A' [T' [Lr' [_ [C' _]]]]]]]]].
  exists q, r, g, q', r', g'. do 4 (split; [assumption|]). split; [congruence|]. intros i v w Ev Ew.
  assert (Hi : (i < arity X)%nat) by (rewrite <- Lr; apply nth_error_Some; congruence).
  destruct (nth_some (comps c1) i _ (wf_len _ _ W1) Hi) as [a Ea]. destruct (nth_some (comps c2) i _ (wf_len _ _ W2) Hi) as [b Eb].
  destruct (nth_some (comps d1) i _ (wf_len _ _ V1) Hi) as [a' Ea']. destruct (nth_some (comps d2) i _ (wf_len _ _ V2) Hi) as [b' Eb'].
  rewrite (C i a b Ea Eb) in Ev. rewrite (C' i a' b' Ea' Eb') in Ew. assert (Ev' : @stored f32 (F32 o) X i (@addc f32 (F32 o) X w1 w2 a b) = v) by (apply Some_inv; exact Ev).
  assert (Ew' : @stored f32 (F32 o) X i (@addc f32 (F32 o) X w1 w2 a' b') = w) by (apply Some_inv; exact Ew). rewrite <- Ev', <- Ew'. apply (stored_mono X i).
  specialize (L1 i a a' Ea Ea'). specialize (L2 i b b' Eb Eb').
  destruct (comp_in o X c1 i a W1 Ea P) as [_ Ba]. destruct (comp_in o X c2 i b W2 Eb P) as [_ Bb]. destruct (comp_in o X d1 i a' V1 Ea' P) as [_ Ba']. destruct (comp_in o X d2 i b' V2 Eb' P) as [_ Bb'].
  destruct (rgb_or_linear X P) as [Lx|[NL Rx]].
  - rewrite (addc_linear X Lx). apply lin_mono; try assumption; apply (plain_small X i); assumption.
  - destruct (GS NL) as [AS [PO RS]]. destruct (rgb_range X i Rx) as [Z U].
    replace (@addc f32 (F32 o) X) with (@add_root f32 (F32 o)) by (destruct Rx as [-> | ->]; reflexivity). apply root_mono; try assumption; lra.
Qed.
Lemma mix_order X w ia ia' (h h' : heap f32) p1 p2 q1 q2 c1 c2 d1 d2 : good_squares o X -> In X plain_types -> in_interval 0 1 w ->
  at_addr h p1 c1 -> at_addr h p2 c2 -> at_addr h' q1 d1 -> at_addr h' q2 d2 ->
  @wf_color f32 (F32 o) X c1 -> @wf_color f32 (F32 o) X c2 -> @wf_color f32 (F32 o) X d1 -> @wf_color f32 (F32 o) X d2 -> below32 c1 d1 -> below32 c2 d2 ->
  ordered below32 (@typed_mix f32 (F32 o) X (Some p1) (Some p2) w ia) h (@typed_mix f32 (F32 o) X (Some q1) (Some q2) w ia') h'.
Proof.
  intros GS P I H1 H2 K1 K2 W1 W2 V1 V2 L1 L2. rewrite !(typed_mix_eq (AF := F32 o)) by (apply weight_ok; assumption).
  apply (add_order X w _ ia ia' h h' p1 p2 q1 q2 c1 c2 d1 d2); try assumption.
  destruct (weight_rest o w I) as [F [B _]]. split; assumption.
Qed.
Lemma subtract_order X w ia ia' (h h' : heap f32) p1 p2 q1 q2 c1 c2 d1 d2 : In X plain_types -> in_interval 0 1 w ->
  at_addr h p1 c1 -> at_addr h p2 c2 -> at_addr h' q1 d1 -> at_addr h' q2 d2 ->
  @wf_color f32 (F32 o) X c1 -> @wf_color f32 (F32 o) X c2 -> @wf_color f32 (F32 o) X d1 -> @wf_color f32 (F32 o) X d2 -> below32 c1 d1 -> below32 d2 c2 ->
  ordered below32 (@typed_subtract f32 (F32 o) X (Some p1) (Some p2) w ia) h (@typed_subtract f32 (F32 o) X (Some q1) (Some q2) w ia') h'.
Proof.
  intros P I H1 H2 K1 K2 W1 W2 V1 V2 [_ L1] [_ L2]. destruct (weight_ok o w I) as [G _].
  destruct (subtract_runs (AF := F32 o) X w ia h p1 p2 c1 c2 P G H1 H2 W1 W2) as [q [r [g [E [A [T [Lr C]]]]]]].
  destruct (subtract_runs (AF := F32 o) X w ia' h' q1 q2 d1 d2 P G K1 K2 V1 V2) as [q' [r' [g' [E' [A' [T' [Lr' C']]]]]]].
  exists q, r, g, q', r', g'. do 4 (split; [assumption|]). split; [congruence|]. intros i v z Ev Ez.
  assert (Hi : (i < arity X)%nat) by (rewrite <- Lr; apply nth_error_Some; congruence).
  destruct (nth_some (comps c1) i _ (wf_len _ _ W1) Hi) as [a Ea]. destruct (nth_some (comps c2) i _ (wf_len _ _ W2) Hi) as [b Eb].
  destruct (nth_some (comps d1) i _ (wf_len _ _ V1) Hi) as [a' Ea']. destruct (nth_some (comps d2) i _ (wf_len _ _ V2) Hi) as [b' Eb'].
  rewrite (C i a b Ea Eb) in Ev. rewrite (C' i a' b' Ea' Eb') in Ez. apply Some_inv in Ev. apply Some_inv in Ez. rewrite <- Ev, <- Ez.
  apply clamp_mono; try apply range_small. specialize (L1 i a a' Ea Ea'). specialize (L2 i b' b Eb' Eb).
  destruct (comp_in o X c1 i a W1 Ea P) as [_ Ba]. destruct (comp_in o X c2 i b W2 Eb P) as [_ Bb]. destruct (comp_in o X d1 i a' V1 Ea' P) as [_ Ba']. destruct (comp_in o X d2 i b' V2 Eb' P) as [_ Bb'].
  apply sub_mono; try assumption; apply (plain_small X i); assumption.
Qed.

(** ** The ends of a mixture *)
Lemma ends X ia (h : heap f32) p1 p2 c1 c2 w : In X linear_types -> (is_value w 1 \/ is_value w 0) ->
  at_addr h p1 c1 -> at_addr h p2 c2 -> @wf_color f32 (F32 o) X c1 -> @wf_color f32 (F32 o) X c2 ->
  returns (@typed_mix f32 (F32 o) X (Some p1) (Some p2) w ia) h (fun r => ty r = X /\ length (comps r) = arity X /\
    forall i x, nth_error (comps (if Rlt_dec 0 (B2R w) then c1 else c2)) i = Some x -> comp_sat r i (fun y => is_value y (B2R x))).
Proof.
  intros Lx Hw H1 H2 W1 W2. assert (I : in_interval 0 1 w) by (destruct Hw as [[F V]|[F V]]; split; try exact F; rewrite V; lra).
  assert (P : In X plain_types) by (unfold linear_types, plain_types in *; simpl in *; tauto).
  destruct (weight_ok o w I) as [G1 G2]. rewrite (typed_mix_eq (AF := F32 o)) by exact G1.
  destruct (add_runs (AF := F32 o) X w ($1 -. w) ia h p1 p2 c1 c2 P G1 G2 H1 H2 W1 W2) as [q [r [g [E [A [T [Lr [_ [C _]]]]]]]]].
  exists q, r, g. split; [exact E|]. split; [exact A|]. split; [exact T|]. split; [exact Lr|].
  intros i x Ex.
  assert (Hi : (i < arity X)%nat). { destruct (Rlt_dec 0 (B2R w)); [rewrite <- (wf_len _ _ W1)|rewrite <- (wf_len _ _ W2)]; apply nth_error_Some; congruence. }
  destruct (nth_some (comps c1) i _ (wf_len _ _ W1) Hi) as [a Ea]. destruct (nth_some (comps c2) i _ (wf_len _ _ W2) Hi) as [b Eb].
  destruct (comp_in o X c1 i a W1 Ea P) as [Fa Ba]. destruct (comp_in o X c2 i b W2 Eb P) as [Fb Bb].
  exists (@stored f32 (F32 o) X i (@addc f32 (F32 o) X w ($1 -. w) a b)). split; [apply (C i a b Ea Eb)|]. rewrite (addc_linear X Lx).
  destruct (weight_rest o w I) as [Fr [Br _]].
  destruct (summed w ($1 -. w) a b I (conj Fr Br) Fa Fb (plain_small X i a P Ba) (plain_small X i b P Bb)) as [Fs [Vs _]].
  assert (K : is_value (@add_lin f32 (F32 o) w ($1 -. w) a b) (fval x)).
  { split; [exact Fs|]. change (@B2R 24 128) with fval. rewrite Vs. destruct (fz_val o 1) as [F1 V1]; [sm|].
    destruct Hw as [[Fw Vw]|[Fw Vw]]; change (@B2R 24 128) with fval in Vw; destruct (Bminus_ok $1 w 0 1 F1 Fw) as [_ Vd]; try sm; try (rewrite V1, Vw; lra);
      change ($1 -. w) with (Bminus mode_NE $1 w); rewrite Vd, V1, Vw; change (@B2R 24 128 w) with (fval w) in Ex; rewrite Vw in Ex.
    - destruct (Rlt_dec 0 1) as [_|N]; [|lra]. rewrite Ea in Ex. apply Some_inv in Ex. rewrite <- Ex.
      replace (IZR 1 - 1) with 0 by ring. rewrite rnd32_0, Rmult_1_l, Rmult_0_l, rnd32_0, Rplus_0_r, !rnd32_id. reflexivity.
    - destruct (Rlt_dec 0 0) as [N|_]; [lra|]. rewrite Eb in Ex. apply Some_inv in Ex. rewrite <- Ex.
      rewrite Rminus_0_r, (rnd32_int 1) by sm. rewrite Rmult_1_l, Rmult_0_l, rnd32_0, Rplus_0_l, !rnd32_id. reflexivity. }
  assert (Bx : fin x /\ IZR (fst (comp_range X i)) <= fval x <= IZR (snd (comp_range X i))).
  { destruct (Rlt_dec 0 (B2R w)); [exact (comp_in o X c1 i x W1 Ex P)|exact (comp_in o X c2 i x W2 Ex P)]. }
  destruct K as [Fk Vk]. change (@B2R 24 128) with fval in Vk. set (s := @add_lin f32 (F32 o) w ($1 -. w) a b) in *. clearbody s.
  destruct (range_small X i) as [Sl Sh]. unfold stored.
  assert (Q : @pre f32 (F32 o) X s = s \/ (fin (@pre f32 (F32 o) X s) /\ fval (@pre f32 (F32 o) X s) = fval x)).
  { unfold pre. destruct (eight_bit X) eqn:EB; [right|left; reflexivity]. destruct (fz_val o 0) as [F0 V0]; [sm|]. destruct (fz_val o 255) as [F5 V5]; [sm|].
    destruct (max_val o s $0 Fk F0) as [Fm Vm]. destruct (min_val o _ $255 Fm F5) as [Fn Vn]. split; [exact Fn|]. rewrite Vn, Vm, V0, V5, Vk.
    assert (0 <= fval x <= 255). { destruct X; try discriminate EB; destruct i; cbn [comp_range fst snd] in Bx; lra. }
    rewrite Rmax_left, Rmin_left by lra. reflexivity. }
  assert (Q' : fin (@pre f32 (F32 o) X s) /\ fval (@pre f32 (F32 o) X s) = fval x) by (destruct Q as [-> |Q]; auto).
  destruct Q' as [Fq Vq]. set (t := @pre f32 (F32 o) X s) in *. clearbody t.
  assert (Lr' : (fst (comp_range X i) <= snd (comp_range X i))%Z) by (apply le_IZR; lra).
  destruct (clamp_val o t (fst (comp_range X i)) (snd (comp_range X i)) Sl Sh Lr' Fq) as [Fc Vc]. split; [exact Fc|]. rewrite Vc, Vq.
  change (@B2R 24 128) with fval. rewrite Rmin_left, Rmax_left by lra. reflexivity.
Qed.
End B32.

(** ** Exact order *)
Lemma into_mono X i x y : x <= y -> into X i x <= into X i y.
Proof. intros L. unfold into, cut, Rmax, Rmin. repeat destruct (Rle_dec _ _); lra. Qed.
Lemma sum_mono X w1 w2 a b a' b' : In X plain_types -> 0 <= w1 -> 0 <= w2 -> a <= a' -> b <= b' -> (~ In X linear_types -> 0 <= a /\ 0 <= b) ->
  weighted_sum X w1 w2 a b <= weighted_sum X w1 w2 a' b'.
Proof.
  intros P W1 W2 A B N. assert (L : w1 * a + w2 * b <= w1 * a' + w2 * b') by (apply Rplus_le_compat; apply Rmult_le_compat_l; assumption).
  destruct (rgb_or_linear X P) as [Lx|[NL Rx]]; [unfold linear_types in Lx; simpl in Lx; destruct Lx as [<-|[<-|[<-|[<-|[<-|[<-|[]]]]]]]; exact L|].
  destruct (N NL) as [Pa Pb]. assert (S : sqrt (w1 * (a * a) + w2 * (b * b)) <= sqrt (w1 * (a' * a') + w2 * (b' * b'))).
  { apply sqrt_le_1_alt. apply Rplus_le_compat; apply Rmult_le_compat_l; try assumption; apply Rmult_le_compat; lra. }
  destruct Rx as [-> | ->]; exact S.
Qed.
Lemma comp_inR X (c : color R) i x : wf_color X c -> nth_error (comps c) i = Some x -> IZR (fst (comp_range X i)) <= x <= IZR (snd (comp_range X i)).
Proof. intros W E. exact (wf_rng X c i x W E). Qed.

Lemma add_order_exact X w1 w2 ia ia' (h h' : heap R) p1 p2 q1 q2 c1 c2 d1 d2 : In X plain_types -> 0 <= w1 <= 1 -> 0 <= w2 <= 1 ->
  at_addr h p1 c1 -> at_addr h p2 c2 -> at_addr h' q1 d1 -> at_addr h' q2 d2 ->
  wf_color X c1 -> wf_color X c2 -> wf_color X d1 -> wf_color X d2 -> below c1 d1 -> below c2 d2 ->
  ordered below (typed_add X (Some p1) (Some p2) w1 w2 ia) h (typed_add X (Some q1) (Some q2) w1 w2 ia') h'.
Proof.
  intros P I1 I2 H1 H2 K1 K2 W1 W2 V1 V2 [_ L1] [_ L2].
  destruct (add_runs (AF := RArith) X w1 w2 ia h p1 p2 c1 c2 P (bad_weightR _ I1) (bad_weightR _ I2) H1 H2 W1 W2) as [q [r [g [E [A [T [Lr [_ [C _]]]]]]]]].
  destruct (add_runs (AF := RArith) X w1 w2 ia' h' q1 q2 d1 d2 P (bad_weightR _ I1) (bad_weightR _ I2) K1 K2 V1 V2) as [q' [r' [g' [E' [A' [T' [Lr' [_ [C' _]]]]]]]]].
  exists q, r, g, q', r', g'. do 4 (split; [assumption|]). split; [congruence|]. intros i v w Ev Ew.
  assert (Hi : (i < arity X)%nat) by (rewrite <- Lr; apply nth_error_Some; congruence).
  destruct (nth_some (comps c1) i _ (wf_len _ _ W1) Hi) as [a Ea]. destruct (nth_some (comps c2) i _ (wf_len _ _ W2) Hi) as [b Eb].
  destruct (nth_some (comps d1) i _ (wf_len _ _ V1) Hi) as [a' Ea']. destruct (nth_some (comps d2) i _ (wf_len _ _ V2) Hi) as [b' Eb'].
  rewrite (C i a b Ea Eb) in Ev. rewrite (C' i a' b' Ea' Eb') in Ew. apply Some_inv in Ev. apply Some_inv in Ew. rewrite <- Ev, <- Ew.
  specialize (L1 i a a' Ea Ea'). specialize (L2 i b b' Eb Eb').
  pose proof (comp_inR X c1 i a W1 Ea) as Ba. pose proof (comp_inR X c2 i b W2 Eb) as Bb.
  assert (S : addc (AF := RArith) X w1 w2 a b <= addc (AF := RArith) X w1 w2 a' b').
  { assert (M : weighted_sum X w1 w2 a b <= weighted_sum X w1 w2 a' b').
    { apply sum_mono; try assumption; try lra. intros NL. destruct (rgb_or_linear X P) as [Lx|[_ Rx]]; [contradiction|]. destruct (rgb_range X i Rx) as [Z _]. lra. }
    unfold addc, weighted_sum in *. destruct X; rewrite ?add_rootR2; exact M. }
  unfold stored, pre, clamp. rn. rewrite ?fzR.
  destruct (eight_bit X); unfold Rmax, Rmin; repeat destruct (Rle_dec _ _); lra.
Qed.

Lemma mix_order_exact X w ia ia' (h h' : heap R) p1 p2 q1 q2 c1 c2 d1 d2 : In X plain_types -> 0 <= w <= 1 ->
  at_addr h p1 c1 -> at_addr h p2 c2 -> at_addr h' q1 d1 -> at_addr h' q2 d2 ->
  wf_color X c1 -> wf_color X c2 -> wf_color X d1 -> wf_color X d2 -> below c1 d1 -> below c2 d2 ->
  ordered below (typed_mix X (Some p1) (Some p2) w ia) h (typed_mix X (Some q1) (Some q2) w ia') h'.
Proof.
  intros P I H1 H2 K1 K2 W1 W2 V1 V2 L1 L2. rewrite !(typed_mix_eq (AF := RArith)) by (apply bad_weightR; lra).
  change (fsub (fz 1) w) with (@fz R RArith 1 - w). rewrite fzR. apply (add_order_exact X w (1 - w) ia ia' h h' p1 p2 q1 q2 c1 c2 d1 d2); try assumption; lra.
Qed.

Lemma subtract_order_exact X w ia ia' (h h' : heap R) p1 p2 q1 q2 c1 c2 d1 d2 : In X plain_types -> 0 <= w <= 1 ->
  at_addr h p1 c1 -> at_addr h p2 c2 -> at_addr h' q1 d1 -> at_addr h' q2 d2 ->
  wf_color X c1 -> wf_color X c2 -> wf_color X d1 -> wf_color X d2 -> below c1 d1 -> below d2 c2 ->
  ordered below (typed_subtract X (Some p1) (Some p2) w ia) h (typed_subtract X (Some q1) (Some q2) w ia') h'.
Proof.
  intros P I H1 H2 K1 K2 W1 W2 V1 V2 [_ L1] [_ L2].
  destruct (subtract_runs (AF := RArith) X w ia h p1 p2 c1 c2 P (bad_weightR _ I) H1 H2 W1 W2) as [q [r [g [E [A [T [Lr C]]]]]]].
  destruct (subtract_runs (AF := RArith) X w ia' h' q1 q2 d1 d2 P (bad_weightR _ I) K1 K2 V1 V2) as [q' [r' [g' [E' [A' [T' [Lr' C']]]]]]].
  exists q, r, g, q', r', g'. do 4 (split; [assumption|]). split; [congruence|]. intros i v z Ev Ez.
  assert (Hi : (i < arity X)%nat) by (rewrite <- Lr; apply nth_error_Some; congruence).
  destruct (nth_some (comps c1) i _ (wf_len _ _ W1) Hi) as [a Ea]. destruct (nth_some (comps c2) i _ (wf_len _ _ W2) Hi) as [b Eb].
  destruct (nth_some (comps d1) i _ (wf_len _ _ V1) Hi) as [a' Ea']. destruct (nth_some (comps d2) i _ (wf_len _ _ V2) Hi) as [b' Eb'].
  rewrite (C i a b Ea Eb) in Ev. rewrite (C' i a' b' Ea' Eb') in Ez. apply Some_inv in Ev. apply Some_inv in Ez. rewrite <- Ev, <- Ez.
  specialize (L1 i a a' Ea Ea'). specialize (L2 i b' b Eb' Eb).
  assert (S : @sub_lin R RArith w a b <= @sub_lin R RArith w a' b').
  { unfold sub_lin. rn. assert (w * b' <= w * b) by (apply Rmult_le_compat_l; lra). lra. }
  unfold clamp. rn. unfold Rmax, Rmin; repeat destruct (Rle_dec _ _); lra.
Qed.

Lemma same_sum X w a : 0 <= a \/ In X linear_types -> weighted_sum X w (1 - w) a a = a.
Proof.
  intros A. unfold weighted_sum. replace (w * (a * a) + (1 - w) * (a * a)) with (a * a) by ring. destruct A as [A|A].
  - rewrite sqrt_square by exact A. destruct X; ring.
  - unfold linear_types in A. simpl in A. destruct A as [<-|[<-|[<-|[<-|[<-|[<-|[]]]]]]]; ring.
Qed.
Lemma mix_between X w ia (h : heap R) p1 p2 c1 c2 : In X plain_types -> 0 <= w <= 1 ->
  at_addr h p1 c1 -> at_addr h p2 c2 -> wf_color X c1 -> wf_color X c2 ->
  returns (typed_mix X (Some p1) (Some p2) w ia) h (fun r => ty r = X /\ length (comps r) = arity X /\
    forall i a b, nth_error (comps c1) i = Some a -> nth_error (comps c2) i = Some b -> exists v, nth_error (comps r) i = Some v /\ Rmin a b <= v <= Rmax a b).
Proof.
  intros P I H1 H2 W1 W2. rewrite !(typed_mix_eq (AF := RArith)) by (apply bad_weightR; lra).
  change (fsub (fz 1) w) with (@fz R RArith 1 - w). rewrite fzR. assert (J : 0 <= 1 - w <= 1) by lra.
  destruct (add_runs (AF := RArith) X w (1 - w) ia h p1 p2 c1 c2 P (bad_weightR _ I) (bad_weightR _ J) H1 H2 W1 W2) as [q [r [g [E [A [T [L [_ [C _]]]]]]]]].
  exists q, r, g. split; [exact E|]. split; [exact A|]. split; [exact T|]. split; [exact L|]. intros i a b Ea Eb.
  exists (stored (AF := RArith) X i (addc (AF := RArith) X w (1 - w) a b)). split; [exact (C i a b Ea Eb)|].
  replace (addc (AF := RArith) X w (1 - w) a b) with (weighted_sum X w (1 - w) a b) by (unfold addc, weighted_sum; destruct X; rewrite ?add_rootR2; reflexivity).
  pose proof (comp_inR X c1 i a W1 Ea) as Ba. pose proof (comp_inR X c2 i b W2 Eb) as Bb.
  assert (M : Rmin a b <= a /\ Rmin a b <= b) by (split; [apply Rmin_l|apply Rmin_r]). assert (M' : a <= Rmax a b /\ b <= Rmax a b) by (split; [apply Rmax_l|apply Rmax_r]).
  assert (D : In X linear_types \/ 0 <= a /\ 0 <= b).
  { destruct (rgb_or_linear X P) as [Lx|[_ Rx]]; [auto|right]. destruct (rgb_range X i Rx) as [Z _]. lra. }
  assert (Q : (0 <= Rmin a b \/ In X linear_types) /\ (0 <= Rmax a b \/ In X linear_types)).
  { destruct D as [D|[D1 D2]]; [auto|]. split; left; [apply Rmin_glb; assumption|lra]. }
  assert (B : Rmin a b <= weighted_sum X w (1 - w) a b <= Rmax a b).
  { split.
    - rewrite <- (same_sum X w (Rmin a b)) at 1 by apply Q. apply sum_mono; try assumption; try lra. intros NL. destruct Q as [[Q|Q] _]; [lra|contradiction].
    - rewrite <- (same_sum X w (Rmax a b)) by apply Q. apply sum_mono; try assumption; try lra. intros NL. destruct D as [D|D]; [contradiction|lra]. }
  assert (R1 : IZR (fst (comp_range X i)) <= Rmin a b) by (apply Rmin_glb; lra). assert (R2 : Rmax a b <= IZR (snd (comp_range X i))) by (apply Rmax_lub; lra).
  set (s := weighted_sum X w (1 - w) a b) in *. set (m := Rmin a b) in *. set (n := Rmax a b) in *. clearbody s m n.
  assert (Z : eight_bit X = true -> IZR (fst (comp_range X i)) = 0 /\ IZR (snd (comp_range X i)) = 255) by (destruct X; try discriminate; destruct i; cbn [comp_range fst snd]; lra).
  unfold stored, pre, clamp. rn. rewrite ?fzR. destruct (eight_bit X); [destruct (Z eq_refl) as [Z1 Z2]|]; unfold Rmax, Rmin; repeat destruct (Rle_dec _ _); lra.
Qed.

Lemma law_oracle : exists o, accurate_square o /\ positive_square o /\ rising_square o.
Proof.
  exists (Oracle (fun x _ => Bmult mode_NE x x) (fun x => x) (fun x => x) (fun x _ => x) (fun x => x) (fun x => x)).
  assert (K : forall x : f32, fin x -> Rabs (fval x) <= 1024 -> fin (Bmult mode_NE x x) /\ fval (Bmult mode_NE x x) = rnd32 (fval x * fval x)).
  { intros x Fx B. apply (Bmult_ok x x (- 2 ^ 20) (2 ^ 20) Fx Fx); try sm.
    apply Rabs_le_inv in B. pose proof (Rle_0_sqr (fval x)) as Q. unfold Rsqr in Q. change (IZR (- 2 ^ 20)) with (-1048576). change (IZR (2 ^ 20)) with 1048576. split; [lra|].
    rewrite <- (Rabs_pos_eq (fval x * fval x)) by exact Q. rewrite Rabs_mult. apply Rle_trans with (1024 * 1024); [|lra]. apply Rmult_le_compat; try apply Rabs_pos; apply Rabs_le; exact B. }
  split; [|split].
  - intros x Fx B; cbn [o_pow]; change (@B2R 24 128) with fval in * ; destruct (K x Fx B) as [Fm Vm]. split; [exact Fm|]. rewrite Vm. split; [intros ->; rewrite Rmult_0_l; apply rnd32_0|]. eapply Rle_trans; [apply rnd_err|].
    rewrite (Rabs_pos_eq (fval x * fval x)) by apply Rle_0_sqr. pose proof (Rle_0_sqr (fval x)) as Q. unfold Rsqr in Q.
    assert (u * (fval x * fval x) <= / 1048576 * (fval x * fval x)) by (apply Rmult_le_compat_r; [exact Q|num]). unfold tiny. lra.
  - intros x Fx B; cbn [o_pow]; change (@B2R 24 128) with fval in * ; destruct (K x Fx B) as [Fm Vm]. rewrite Vm. apply rnd_nonneg. apply Rle_0_sqr.
  - intros x y Fx Fy L B. cbn [o_pow]. change (@B2R 24 128) with fval in *. destruct (K x Fx) as [_ Vx]; [rewrite Rabs_pos_eq; lra|]. destruct (K y Fy) as [_ Vy]; [rewrite Rabs_pos_eq; lra|].
    rewrite Vx, Vy. apply rnd32_le. apply Rmult_le_compat; lra.
Qed.

(** Two colours for the examples: black and white. *)
Lemma law_colours : forall o, exists (h : heap f32) c1 c2 w, at_addr h 0%nat c1 /\ at_addr h 1%nat c2 /\ @wf_color f32 (F32 o) RGB_TRUE c1 /\ @wf_color f32 (F32 o) RGB_TRUE c2 /\
  holds_bytes (0, 0, 0)%Z c1 /\ holds_bytes (255, 255, 255)%Z c2 /\ below32 c1 c2 /\ in_interval 0 1 w /\ is_value w 1.
Proof.
  intros o. destruct (two_exist o 0 0 0 255 255 255) as [h [c1 [c2 [H1 [H2 [W1 [W2 [_ [B1 [_ [B2 _]]]]]]]]]]]; try (unfold is_byte; lia).
  destruct (fz_val o 1) as [F1 V1]; [sm|].
  exists h, c1, c2, (@fz f32 (F32 o) 1). do 6 (split; [assumption|]). split; [|split; [split; [exact F1|change (@B2R 24 128) with fval; rewrite V1; lra]|split; [exact F1|exact V1]]].
  destruct (Conv_Proofs.comps3 (AF := F32 o) _ _ W1 eq_refl) as [x1 [y1 [z1 C1]]]. destruct (Conv_Proofs.comps3 (AF := F32 o) _ _ W2 eq_refl) as [x2 [y2 [z2 C2]]].
  split; [rewrite C1, C2; reflexivity|]. intros i v w E1 E2.
  assert (P : In RGB_TRUE plain_types) by (simpl; auto). destruct (comp_in o _ _ i v W1 E1 P) as [Fv _]. destruct (comp_in o _ _ i w W2 E2 P) as [Fw Bw]. split; [exact Fv|]. split; [exact Fw|].
  cbn [holds_bytes] in B1. assert (V0 : fval v = 0).
  { unfold has_bytes, comp_sat in B1. destruct B1 as [_ [[a [Ea [_ Va]]] [[b [Eb [_ Vb]]] [c [Ec [_ Vc]]]]]].
    destruct i as [|[|[|i]]]; [rewrite Ea in E1; apply Some_inv in E1; rewrite <- E1; exact Va|rewrite Eb in E1; apply Some_inv in E1; rewrite <- E1; exact Vb|rewrite Ec in E1; apply Some_inv in E1; rewrite <- E1; exact Vc|].
    rewrite C1 in E1. destruct i; discriminate E1. }
  change (@B2R 24 128) with fval. rewrite V0. cbn [comp_range fst] in Bw. lra.
Qed.
