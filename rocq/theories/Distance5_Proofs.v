(** * color_distance: binary32 *)
From Coq Require Import ZArith QArith Reals Lra Lia List Bool.
From Flocq Require Import Core IEEE754.BinarySingleNaN.
From Verif Require Import Arith Outcome ColorModel GammaModel MatrixModel SpaceModel Heap Converter Calculation Blend Distance
  Spec F32 RArith F32Facts Hue32 Spec32 Laws NormalForms History Core_Proofs Core2_Proofs Core3_Proofs Core4_Proofs Convert_Proofs Alpha8
  Spec_Matrix Spec_Conv Spec_Calc Spec_Blend Spec_Distance
  Conv_Proofs Conv2_Proofs Conv3_Proofs Total_Proofs HueR_Proofs Round_Proofs Calc_Proofs Calc2_Proofs Calc3_Proofs Blend_Proofs Blend2_Proofs Blend3_Proofs
  Gamma2_Proofs Run_Proofs Distance_Proofs Distance2_Proofs Distance3_Proofs Distance4_Proofs.

Import ListNotations.
Local Open Scope R_scope.

(** ** Structure *)
Definition same_bits (x y : f32) : bool := is_finite x && is_finite y && Beqb x y && Bool.eqb (Bsign x) (Bsign y).
Lemma same_bits_eq x y : same_bits x y = true -> x = y.
Proof.
  intros H. unfold same_bits in H. rewrite !andb_true_iff in H. destruct H as [[[Fx Fy] E] S].
  rewrite Beqb_fin in E by assumption. destruct (Req_bool_spec (fval x) (fval y)) as [Q|Q]; [|discriminate E].
  apply eqb_prop in S. apply B2R_Bsign_inj; assumption.
Qed.
Lemma distance_total32 o (d : distance_fun f32) X1 X2 (h : heap f32) p1 c1 p2 c2 : match d with Cie00 _ _ _ _ _ => False | _ => True end ->
  at_addr h p1 c1 -> at_addr h p2 c2 -> @wf_color f32 (F32 o) X1 c1 -> @wf_color f32 (F32 o) X2 c2 ->
  (needs_space X1 (compared_in d) = true -> has_space h c1) -> (needs_space X2 (compared_in d) = true -> has_space h c2) ->
  exists x h', @distance f32 (F32 o) d (Some p1) (Some p2) h = (Ok x, h') /\ spaces h' = spaces h /\
    (forall i c, i <> p1 -> i <> p2 -> at_addr h i c -> at_addr h' i c).
Proof.
  intros Hd H1 H2 W1 W2 N1 N2. destruct (Nat.eq_dec p1 p2) as [->|NP].
  - exists (@fz f32 (F32 o) 0), h. rewrite distance_same. auto.
  - destruct (distance_run (AF := F32 o) d X1 X2 h p1 c1 p2 c2 NP H1 H2 W1 W2 N1 N2) as [h' [d1 [d2 [_ [Wd1 [Wd2 [E [S [O _]]]]]]]]].
    destruct (on_components_ok (AF := F32 o) d d1 d2 Hd Wd1 Wd2) as [x Ex]. exists x, h'. rewrite E, Ex. auto.
Qed.
Lemma distance_unchanged o (d : distance_fun f32) X1 X2 (h : heap f32) p1 c1 p2 c2 : at_addr h p1 c1 -> at_addr h p2 c2 ->
  @wf_color f32 (F32 o) X1 c1 -> @wf_color f32 (F32 o) X2 c2 ->
  (needs_space X1 (compared_in d) = true -> has_space h c1) -> (needs_space X2 (compared_in d) = true -> has_space h c2) ->
  (X1 <> RGB_DEEP /\ X2 <> RGB_DEEP) \/ cie (compared_in d) = false ->
  exists r h', @distance f32 (F32 o) d (Some p1) (Some p2) h = (r, h') /\ unchanged h h'.
Proof.
  intros H1 H2 W1 W2 N1 N2 P. destruct (Nat.eq_dec p1 p2) as [->|NP].
  - exists (Ok (@fz f32 (F32 o) 0)), h. rewrite distance_same. split; [reflexivity|apply unchanged_refl].
  - destruct (distance_run (AF := F32 o) d X1 X2 h p1 c1 p2 c2 NP H1 H2 W1 W2 N1 N2) as [h' [d1 [d2 [_ [_ [_ [E [_ [_ [_ [_ [_ U]]]]]]]]]]]].
    exists (@on_components f32 (F32 o) d d1 d2), h'. auto.
Qed.

Lemma euclid_of_squared o s p q (h : heap f32) d h' : @euclidean_distance_squared f32 (F32 o) p q RGB_DEEP h = (Ok d, h') ->
  @euclidean_distance f32 (F32 o) p q s h = (Ok (@fsqrt f32 (F32 o) d), h').
Proof.
  intros E. unfold euclidean_distance. destruct (ptr_eqb p q) eqn:B.
  - cbn [euclidean_distance_squared] in E. unfold measure in E. rewrite B in E. unfold ret in E |- *. injection E as <- <-.
    reflexivity.
  - unfold bind. rewrite E. reflexivity.
Qed.

(** A deep colour is replaced by its linear form. *)
Section Modifies.
Context {F : Type} {AF : Arith F} {AL : ArithLaws F} {A8 : Alpha8Laws F}.
Lemma distance_modifies (d : distance_fun F) X2 (h : heap F) p1 c1 p2 c2 i s g : compared_in d = LAB -> p1 <> p2 -> at_addr h p1 c1 -> at_addr h p2 c2 ->
  wf_color RGB_DEEP c1 -> wf_color X2 c2 -> rgb_space c1 = Some i -> nth_error (spaces h) i = Some s -> usable_space s -> s_gamma s = Some g ->
  (needs_space X2 LAB = true -> has_space h c2) ->
  exists r h', distance d (Some p1) (Some p2) h = (r, h') /\ at_addr h' p1 (corrected (inverse_gamma_correction g) c1).
Proof.
  intros Hd NP H1 H2 W1 W2 Sc Hs U Hg N2.
  assert (N1 : has_space h c1) by (exists i, s; auto).
  destruct (distance_run d RGB_DEEP X2 h p1 c1 p2 c2 NP H1 H2 W1 W2) as [h' [d1 [d2 [[a1 [h1 [a2 [E1 [E2 _]]]]] [_ [_ [E _]]]]]]]; [auto|rewrite Hd; exact N2|].
  rewrite Hd in E1, E2. eexists _, h'. split; [exact E|].
  destruct (deep_step h p1 c1 i s g H1 W1 Sc Hs U Hg) as [q [r [hx [Ex [Ax [Aq [Wr [Sr [Shx Nq]]]]]]]]].
  assert (Sp : has_space hx r) by (exists i, s; rewrite Shx, Sr; auto).
  destruct (to_step XYZ LAB hx q r ltac:(discriminate) Aq Wr) as [q' [r' [hy [Ey [_ [_ [_ [[Sy _] [_ [_ Uy]]]]]]]]]]; [auto|].
  assert (Eh : h1 = hy).
  { cbn [to_type] in E1, Ey. unfold to_lab, bind at 1 in E1. unfold load in E1. unfold at_addr in H1. rewrite H1 in E1. rewrite (wf_ty _ _ W1) in E1.
    unfold rgb_deep_to_lab, bind in E1. rewrite Ex in E1.
    unfold to_lab, bind at 1 in Ey. unfold load in Ey. unfold at_addr in Aq. rewrite Aq in Ey. rewrite (wf_ty _ _ Wr) in Ey. congruence. }
  subst h1. assert (A1 : at_addr hy p1 (corrected (inverse_gamma_correction g) c1)).
  { destruct Uy as [_ Uc]; [left; discriminate|]. apply Uc. exact Ax. }
  destruct (to_step RGB_DEEP LAB h p1 c1 ltac:(discriminate) H1 W1 (fun _ => N1)) as [q1 [r1 [h1 [E1' [_ [_ [_ [[S1 O1] _]]]]]]]].
  assert (h1 = hy) by congruence. subst h1.
  destruct (to_step X2 LAB hy p2 c2 ltac:(discriminate) (O1 _ _ (not_eq_sym NP) H2) W2) as [q2 [r2 [h2 [E2' [_ [_ [_ [[_ O2] _]]]]]]]].
  { intros Q. destruct (N2 Q) as [j [t [Q1 [Q2 Q3]]]]. exists j, t. rewrite S1. auto. }
  assert (h2 = h') by congruence. subst h2. apply O2; assumption.
Qed.
End Modifies.

Lemma distance_darkens o (d : distance_fun f32) : compared_in d = LAB ->
  exists (h : heap f32) c c', at_addr h 0%nat c /\ at_addr h 1%nat c /\ @reachable f32 (F32 o) c /\ has_space h c /\
    (exists r h', @distance f32 (F32 o) d (Some 0%nat) (Some 1%nat) h = (r, h') /\ at_addr h' 0%nat c') /\
    comp_sat c 0 (fun x => is_value x (1 / 32)) /\ comp_sat c' 0 (fun x => is_finite x = true /\ (fval x < 1 / 320)%R).
Proof.
  intros Hd. destruct (dark_deep o) as [s [c [U [Hg [W [Sc [Rc [C1 C2]]]]]]]]. pose (h := Heap [c; c] [s]).
  assert (Sp : has_space h c) by (exists 0%nat, s; auto).
  destruct (distance_modifies (AF := F32 o) d RGB_DEEP h 0%nat c 1%nat c 0%nat s _ Hd ltac:(discriminate) eq_refl eq_refl W W Sc eq_refl U Hg (fun _ => Sp)) as [r [h' [E A]]].
  exists h, c. eexists. split; [reflexivity|]. split; [reflexivity|]. split; [exact Rc|]. split; [exact Sp|]. split; [exists r, h'; split; [exact E|exact A]|]. auto.
Qed.

(** ** Not a number *)
Lemma nan_mul (y : f32) : Bmult mode_NE B754_nan y = B754_nan. Proof. destruct y; reflexivity. Qed.
Lemma nan_div (y : f32) : Bdiv mode_NE B754_nan y = B754_nan. Proof. destruct y; reflexivity. Qed.
Lemma mul_nan (x : f32) : Bmult mode_NE x B754_nan = B754_nan. Proof. destruct x; reflexivity. Qed.
Lemma add_nan (x : f32) : Bplus mode_NE x B754_nan = B754_nan. Proof. destruct x; reflexivity. Qed.
Lemma nan_add (y : f32) : Bplus mode_NE B754_nan y = B754_nan. Proof. destruct y; reflexivity. Qed.

Lemma lab_pair32 o l1 a1 b1 l2 a2 b2 :
  Forall (fun n => (0 <= n <= 100)%Z) [l1; l2] -> Forall (fun n => (-128 <= n <= 128)%Z) [a1; b1; a2; b2] ->
  exists (h : heap f32) c1 c2, at_addr h 0%nat c1 /\ at_addr h 1%nat c2 /\ @wf_color f32 (F32 o) LAB c1 /\ @wf_color f32 (F32 o) LAB c2 /\ has_space h c1 /\ has_space h c2 /\
    @reachable f32 (F32 o) c1 /\ @reachable f32 (F32 o) c2 /\ comps c1 = map (@fz f32 (F32 o)) [l1; a1; b1] /\ comps c2 = map (@fz f32 (F32 o)) [l2; a2; b2].
Proof.
  intros HL HA. inversion HL as [|? ? L1 HL']; subst. inversion HL' as [|? ? L2 _]; subst.
  inversion HA as [|? ? A1 HA1]; subst. inversion HA1 as [|? ? B1 HA2]; subst. inversion HA2 as [|? ? A2 HA3]; subst. inversion HA3 as [|? ? B2 _]; subst.
  destruct (space_ctor_usable (AF := F32 o) (lit32 (64 # 100)) (lit32 (33 # 100)) (lit32 (30 # 100)) (lit32 (60 # 100)) (lit32 (15 # 100)) (lit32 (6 # 100))
    0%nat (wp_D65_2Degree (AF := F32 o)) (gamma_sRGB (AF := F32 o))) as [s [Es [U _]]].
  assert (C : forall lo hi n, (-128 <= lo)%Z -> (hi <= 128)%Z -> (lo <= n <= hi)%Z -> clamp (AF := F32 o) (@fz f32 (F32 o) n) (@fz f32 (F32 o) hi) (@fz f32 (F32 o) lo) = @fz f32 (F32 o) n).
  { intros lo hi n Q1 Q2 Q3. destruct (fz_val o n) as [Fn Vn]; [unfold small; lia|]. apply (clamp_id (AF := F32 o)); try (unfold small; lia). apply within32; try (unfold small; lia).
    split; [exact Fn|]. rewrite Vn. split; apply IZR_le; lia. }
  destruct (lab_made (AF := F32 o) (AL := F32Laws o) (@fz f32 (F32 o) l1) (@fz f32 (F32 o) a1) (@fz f32 (F32 o) b1) (@fz f32 (F32 o) 1) (Some 0%nat)) as [c1 [E1 [W1 [_ S1]]]].
  destruct (lab_made (AF := F32 o) (AL := F32Laws o) (@fz f32 (F32 o) l2) (@fz f32 (F32 o) a2) (@fz f32 (F32 o) b2) (@fz f32 (F32 o) 1) (Some 0%nat)) as [c2 [E2 [W2 [_ S2]]]].
  exists (Heap [c1; c2] [s]), c1, c2. split; [reflexivity|]. split; [reflexivity|]. split; [exact W1|]. split; [exact W2|].
  split; [exists 0%nat, s; auto|]. split; [exists 0%nat, s; auto|].
  split; [apply r_new; eapply mk_lab; exact E1|]. split; [apply r_new; eapply mk_lab; exact E2|].
  rewrite lab_nf in E1, E2. unfold c100 in E1, E2. rewrite !C in E1, E2 by lia. apply Ok_inj in E1, E2. rewrite <- E1, <- E2. auto.
Qed.

Lemma direct_run32 o (d : distance_fun f32) (h : heap f32) p1 c1 p2 c2 : p1 <> p2 -> at_addr h p1 c1 -> at_addr h p2 c2 ->
  @wf_color f32 (F32 o) (compared_in d) c1 -> @wf_color f32 (F32 o) (compared_in d) c2 -> has_space h c1 -> has_space h c2 ->
  @distance f32 (F32 o) d (Some p1) (Some p2) h = (@on_components f32 (F32 o) d c1 c2, h).
Proof.
  intros NP H1 H2 W1 W2 N1 N2.
  destruct (distance_run (AF := F32 o) d _ _ h p1 c1 p2 c2 NP H1 H2 W1 W2) as [h' [d1 [d2 [C [Wd1 [Wd2 [E [_ [_ [I1 [I2 [I3 _]]]]]]]]]]]]; auto.
  rewrite (I1 eq_refl), (I2 eq_refl), (I3 eq_refl eq_refl) in E. exact E.
Qed.

Lemma cie94_nan o kL k1 k2 kC kH : squares o ->
  exists (h : heap f32) c1 c2, at_addr h 0%nat c1 /\ at_addr h 1%nat c2 /\ has_space h c1 /\ has_space h c2 /\
    @reachable f32 (F32 o) c1 /\ @reachable f32 (F32 o) c2 /\ comps c1 = map (@fz f32 (F32 o)) [50; -12; 2]%Z /\ comps c2 = map (@fz f32 (F32 o)) [50; -6; 1]%Z /\
    @distance f32 (F32 o) (Cie94 kL k1 k2 kC kH) (Some 0%nat) (Some 1%nat) h = (Ok B754_nan, h).
Proof.
  intros Sq. destruct (lab_pair32 o 50 (-12) 2 50 (-6) 1) as [h [c1 [c2 [H1 [H2 [W1 [W2 [N1 [N2 [R1 [R2 [E1 E2]]]]]]]]]]]]; [repeat constructor; lia|repeat constructor; lia|].
  exists h, c1, c2. do 8 (split; [assumption|]). rewrite (direct_run32 o _ h 0 c1 1 c2) by (auto; discriminate). f_equal. cbn [on_components].
  unfold cie94_f, with3. rewrite E1, E2. cbn [map]. cbv zeta.
  assert (P : forall x, @fpow f32 (F32 o) x (@fz f32 (F32 o) 2) = Bmult mode_NE x x) by (intros x; apply Sq). rewrite !P.
  cbn [fadd fsub fmul fdiv fsqrt F32].
  match goal with |- context [Bdiv mode_NE (Bsqrt mode_NE ?r) (Bmult mode_NE kH _)] => assert (N : Bsqrt mode_NE r = B754_nan) end.
  { match goal with |- ?x = _ => assert (Q : is_nan x = true) by (vm_compute; reflexivity); destruct x; try discriminate Q; reflexivity end. }
  rewrite N, nan_div, nan_mul, add_nan. reflexivity.
Qed.

Lemma cmc_nan o l c : squares o ->
  exists (h : heap f32) c1 c2, at_addr h 0%nat c1 /\ at_addr h 1%nat c2 /\ has_space h c1 /\ has_space h c2 /\
    @reachable f32 (F32 o) c1 /\ @reachable f32 (F32 o) c2 /\ comps c1 = map (@fz f32 (F32 o)) [50; -12; 2]%Z /\ comps c2 = map (@fz f32 (F32 o)) [50; -6; 1]%Z /\
    @distance f32 (F32 o) (Cmc l c) (Some 0%nat) (Some 1%nat) h = (Ok B754_nan, h).
Proof.
  intros Sq. destruct (lab_pair32 o 50 (-12) 2 50 (-6) 1) as [h [c1 [c2 [H1 [H2 [W1 [W2 [N1 [N2 [R1 [R2 [E1 E2]]]]]]]]]]]]; [repeat constructor; lia|repeat constructor; lia|].
  exists h, c1, c2. do 8 (split; [assumption|]). rewrite (direct_run32 o _ h 0 c1 1 c2) by (auto; discriminate). f_equal. cbn [on_components].
  unfold cmc_f, with3. rewrite E1, E2. cbn [map]. cbv zeta.
  assert (P : forall x, @fpow f32 (F32 o) x (@fz f32 (F32 o) 2) = Bmult mode_NE x x) by (intros x; apply Sq). rewrite !P.
  cbn [fadd fsub fmul fdiv fsqrt F32].
  match goal with |- context [Bdiv mode_NE (Bsqrt mode_NE (Bminus mode_NE ?u ?v)) _] => assert (N : Bsqrt mode_NE (Bminus mode_NE u v) = B754_nan) end.
  { match goal with |- ?x = _ => assert (Q : is_nan x = true) by (vm_compute; reflexivity); destruct x; try discriminate Q; reflexivity end. }
  rewrite N, nan_div, nan_mul, add_nan. reflexivity.
Qed.

Lemma cie00_nan o kL k1 k2 kC kH : libm_values o ->
  exists (h : heap f32) c1 c2, at_addr h 0%nat c1 /\ at_addr h 1%nat c2 /\ has_space h c1 /\ has_space h c2 /\
    @reachable f32 (F32 o) c1 /\ @reachable f32 (F32 o) c2 /\ comps c1 = map (@fz f32 (F32 o)) [50; 12; 0]%Z /\ comps c2 = map (@fz f32 (F32 o)) [50; 20; 0]%Z /\
    @distance f32 (F32 o) (Cie00 kL k1 k2 kC kH) (Some 0%nat) (Some 1%nat) h = (Ok B754_nan, h).
Proof.
  intros [Sq [P16 [P25 [At [Ex Si]]]]].
  destruct (lab_pair32 o 50 12 0 50 20 0) as [h [c1 [c2 [H1 [H2 [W1 [W2 [N1 [N2 [R1 [R2 [E1 E2]]]]]]]]]]]]; [repeat constructor; lia|repeat constructor; lia|].
  exists h, c1, c2. do 8 (split; [assumption|]). rewrite (direct_run32 o _ h 0 c1 1 c2) by (auto; discriminate). f_equal. cbn [on_components].
  unfold cie00_f, with3. rewrite E1, E2. cbn [map].
  assert (P : forall x, @fpow f32 (F32 o) x (@fz f32 (F32 o) 2) = Bmult mode_NE x x) by (intros x; apply Sq). rewrite !P.
  assert (C : @fdiv f32 (F32 o) (@fadd f32 (F32 o) (@fsqrt f32 (F32 o) (@fadd f32 (F32 o) (Bmult mode_NE (@fz f32 (F32 o) 12) (@fz f32 (F32 o) 12)) (Bmult mode_NE (@fz f32 (F32 o) 0) (@fz f32 (F32 o) 0))))
                       (@fsqrt f32 (F32 o) (@fadd f32 (F32 o) (Bmult mode_NE (@fz f32 (F32 o) 20) (@fz f32 (F32 o) 20)) (Bmult mode_NE (@fz f32 (F32 o) 0) (@fz f32 (F32 o) 0))))) (@fz f32 (F32 o) 2)
              = @fz f32 (F32 o) 16) by (apply same_bits_eq; vm_compute; reflexivity).
  rewrite C. change (@fpow f32 (F32 o) (@fz f32 (F32 o) 16) (@fz f32 (F32 o) 7)) with (o_pow o (lit32 16) (lit32 7)).
  change (@fpow f32 (F32 o) (@fz f32 (F32 o) 25) (@fz f32 (F32 o) 7)) with (o_pow o (lit32 25) (lit32 7)). rewrite P16, P25.
  set (sq := @fsqrt f32 (F32 o) (@fdiv f32 (F32 o) (lit32 268435456) (@fadd f32 (F32 o) (lit32 268435456) (lit32 6103515648)))).
  assert (Hh : forall n, In n [12; 20]%Z -> @hue_int f32 (F32 o) (@fz f32 (F32 o) 0)
     (@fadd f32 (F32 o) (@fz f32 (F32 o) n) (@fmul f32 (F32 o) (@fdiv f32 (F32 o) (@fz f32 (F32 o) n) (@fz f32 (F32 o) 2)) (@fsub f32 (F32 o) (@fz f32 (F32 o) 1) sq))) = Ok 0%Z).
  { intros n Hn. unfold hue_int. cbn [fatan2 F32].
    change (@fz f32 (F32 o) 0) with (lit32 0). rewrite At; [vm_compute; reflexivity|].
    destruct Hn as [<-|[<-|[]]]; vm_compute; reflexivity. }
  cbv zeta. rewrite !Hh by (simpl; auto). cbn [obind]. rewrite !P.
  match goal with |- context [fexp (Bmult mode_NE ?u ?u)] => assert (Q : Bmult mode_NE u u = lit32 121) by (apply same_bits_eq; vm_compute; reflexivity); rewrite Q end.
  change (fexp (Arith := F32 o) (lit32 121)) with (o_exp o (lit32 121)). rewrite Ex.
  match goal with |- context [@fsin f32 (F32 o) ?u] => match u with context [B754_infinity] => assert (Q2 : u = B754_infinity false) by (vm_compute; reflexivity); rewrite Q2 end end.
  change (fsin (Arith := F32 o) (B754_infinity false)) with (o_sin o (B754_infinity false)). rewrite Si.
  cbn [fadd fmul fsqrt F32]. rewrite mul_nan, !nan_mul, add_nan. reflexivity.
Qed.

(** Library functions with these values exist. *)
Lemma libm_example : exists o, libm_values o.
Proof.
  exists (Oracle (fun x y => if Beqb y (lit32 2) then Bmult mode_NE x x else if Beqb x (lit32 16) then lit32 268435456 else lit32 6103515648)
    (fun _ => B754_nan) (fun _ => B754_nan) (fun _ _ => lit32 0) (fun _ => B754_infinity false) (fun _ => B754_nan)).
  unfold libm_values, squares. cbn [o_pow o_atan2 o_exp o_sin]. repeat split.
Qed.
