(** * Proofs of the properties of colour objects *)
From Coq Require Import ZArith QArith Reals Lra Lia List Bool Ascii String.
From Flocq Require Import Core IEEE754.BinarySingleNaN.
From Verif Require Import Arith Outcome ColorModel HexModel GammaModel MatrixModel SpaceModel Heap.
From Verif Require Import Spec Spec32 History F32 F32Facts RArith Laws Core_Proofs.
Import ListNotations.
Local Open Scope Z_scope.

Lemma small_lia n : -16777216 <= n <= 16777216 -> small n.
Proof. unfold small. lia. Qed.

Lemma within_in_interval o lo hi x : small lo -> small hi ->
  @within f32 (F32 o) lo hi x <-> in_interval lo hi x.
Proof. apply within32. Qed.

(** ** C01 *)
Lemma components_in_range o (c : color f32) : @reachable f32 (F32 o) c ->
  In (cls c) all_types /\ ty c = cls c /\ List.length (comps c) = arity (cls c) /\
  forall i x, nth_error (comps c) i = Some x ->
    in_interval (fst (comp_range (cls c) i)) (snd (comp_range (cls c) i)) x.
Proof.
  intros H. apply reachable_inv in H. destruct H as [W _].
  split; [|split; [|split]].
  - pose proof (wf_real _ _ W). destruct (cls c); simpl; tauto.
  - apply (wf_ty _ _ W).
  - apply (wf_len _ _ W).
  - intros i x N. destruct (small_range (cls c) i) as [A [B _]].
    rewrite <- (within_in_interval o) by assumption. apply (wf_range _ _ W _ _ N).
Qed.

(** ** C02 *)
Definition has_hue (k : ctype) : bool := match k with HSI | HSV | HSL | HCY => true | _ => false end.

Lemma hue_total_in_range o (c : color f32) v : @reachable f32 (F32 o) c -> has_hue (cls c) = true ->
  exists c', @named_set f32 (F32 o) (cls c) c v 0 = Ok c' /\ comp_sat c' 0 (in_interval 0 359).
Proof.
  intros H K. pose proof (reachable_inv _ H) as [W _].
  assert (A : arity (cls c) = 3%nat) by (destruct (cls c); try discriminate; reflexivity).
  destruct (named_set_wf (cls c) c v 0 W) as [c' [E [W' _]]]; [rewrite A; lia|].
  exists c'. split; auto.
  pose proof (wf_len _ _ W') as L. rewrite A in L.
  destruct (comps c') as [|x l] eqn:EC; [discriminate|].
  exists x. rewrite EC. split; auto.
  pose proof (wf_range _ _ W' 0%nat x) as R. rewrite EC in R. specialize (R eq_refl).
  apply (within_in_interval o) in R; [|apply small_range|apply small_range].
  destruct (cls c); try discriminate; exact R.
Qed.

Lemma Rfmod_rem x y : (0 < y)%R -> exists k : Z, Rfmod x y = (x - IZR k * y)%R.
Proof. intros _. exists (Rtrunc (x / y)). reflexivity. Qed.

Lemma hue_exact (c : color R) v : @wf_color R RArith (cls c) c -> has_hue (cls c) = true ->
  exists c' (k : Z) m, named_set (cls c) c v 0 = Ok c' /\
    v = (360 * IZR k + m)%R /\ (0 <= m < 360)%R /\ nth_error (comps c') 0 = Some (Rmin m 359).
Proof.
  intros W K.
  assert (A : arity (cls c) = 3%nat) by (destruct (cls c); try discriminate; reflexivity).
  pose proof (wf_len _ _ W) as L. rewrite A in L.
  destruct (comps c) as [|x0 l] eqn:EC; [discriminate|].
  assert (N : named_set (cls c) c v 0 = set_hue c v) by (unfold named_set; destruct (cls c); try discriminate; reflexivity).
  rewrite N. clear N.
  destruct (Rfmod_rem v 360) as [k Ek]; [lra|].
  destruct (Rfmod_bounds v 360) as [B1 B2]; [lra|].
  assert (B : (-360 < Rfmod v 360 < 360)%R) by (destruct (Rle_lt_dec 0 v) as [H|H]; [apply B1 in H|apply B2 in H]; lra).
  clear B1 B2.
  unfold set_hue, hue_fuel. cbn [wrap_negative]. rewrite !fzR. cbn [flt fadd ffmod RArith].
  set (r := Rfmod v 360) in *.
  assert (S : forall m, (0 <= m < 360)%R ->
    exists c', set_component_lim c m 0 359%R 0%R = Ok c' /\ nth_error (comps c') 0 = Some (Rmin m 359)).
  { intros m Hm. unfold set_component_lim, bad_index. rewrite EC. cbn [Z.ltb Z.compare orb List.length].
    replace (Z.of_nat (S (List.length l)) <=? 0) with false by (symmetry; apply Z.leb_gt; lia).
    eexists. split; [reflexivity|]. cbn [comps with_comps Z.to_nat upd nth_error].
    unfold clamp. cbn [fmin fmax RArith]. rewrite Rmax_left; auto. apply Rmin_glb; lra. }
  destruct (Rltb r 0) eqn:E.
  - apply Rltb_true in E.
    replace (Rltb (r + 360) 0) with false by (symmetry; apply Rltb_false; lra).
    cbn [obind]. destruct (S (r + 360)%R) as [c' [E1 E2]]; [lra|].
    exists c', (k - 1), (r + 360)%R. split; auto. split; [|split; auto; lra].
    rewrite minus_IZR. lra.
  - apply Rltb_false in E. cbn [obind]. destruct (S r) as [c' [E1 E2]]; [lra|].
    exists c', k, r. split; auto. split; [lra|]. split; auto. lra.
Qed.

(** ** C03 *)
Section C03.
Context {F : Type} {AF : Arith F}.

Lemma bad_index_iff (c : color F) i :
  bad_index c i = true <-> (i < 0 \/ Z.of_nat (List.length (comps c)) <= i).
Proof. unfold bad_index. rewrite orb_true_iff, Z.ltb_lt, Z.leb_le. tauto. Qed.

Lemma get_component_spec (c : color F) i :
  (get_component c i = Throw (by_pointer out_of_range) <-> (i < 0 \/ Z.of_nat (List.length (comps c)) <= i)) /\
  (forall x, get_component c i = Ok x <-> 0 <= i /\ nth_error (comps c) (Z.to_nat i) = Some x).
Proof.
  pose proof (bad_index_iff c i) as B. unfold get_component.
  destruct (bad_index c i).
  - assert (H : i < 0 \/ Z.of_nat (List.length (comps c)) <= i) by tauto. split; [tauto|].
    intros x. split; [discriminate|]. intros [P N]. exfalso.
    assert ((Z.to_nat i < List.length (comps c))%nat) by (apply nth_error_Some; congruence). lia.
  - assert (H : ~ (i < 0 \/ Z.of_nat (List.length (comps c)) <= i)) by (intros X; apply B in X; discriminate).
    destruct (nth_error (comps c) (Z.to_nat i)) as [v|] eqn:N.
    + split; [split; [discriminate|contradiction]|]. intros x. split; [|intros [_ E]; congruence].
      intros E. inversion E; subst. split; auto. lia.
    + exfalso. apply nth_error_None in N. lia.
Qed.

Lemma set_component_spec (c : color F) v i :
  (set_component c v i = Throw (by_pointer out_of_range) <-> (i < 0 \/ Z.of_nat (List.length (comps c)) <= i)) /\
  (forall c', set_component c v i = Ok c' ->
     cls c' = cls c /\ ty c' = ty c /\ m_alpha c' = m_alpha c /\ m_max c' = m_max c /\ m_min c' = m_min c /\
     rgb_space c' = rgb_space c /\ List.length (comps c') = List.length (comps c) /\
     get_component c' i = Ok (clamp v (m_max c) (m_min c)) /\
     forall j, j <> i -> get_component c' j = get_component c j) /\
  (0 <= i < Z.of_nat (List.length (comps c)) -> exists c', set_component c v i = Ok c').
Proof.
  pose proof (bad_index_iff c i) as B. split; [|split].
  - unfold set_component, set_component_lim. destruct (bad_index c i).
    + tauto.
    + split; [discriminate|]. intros H. apply B in H. discriminate.
  - intros c' H. unfold set_component in H. apply set_lim_spec in H. destruct H as [Hi ->].
    cbn [cls ty comps m_alpha m_max m_min rgb_space with_comps]. rewrite upd_length. do 7 (split; [reflexivity|]).
    split.
    + apply get_component_spec. split; [lia|]. cbn [comps with_comps]. apply upd_nth_same. lia.
    + intros j Hj. unfold get_component, bad_index. cbn [comps with_comps]. rewrite upd_length.
      destruct (j <? 0) eqn:J; cbn [orb]; auto. apply Z.ltb_ge in J.
      rewrite upd_nth_other; auto. lia.
  - intros H. unfold set_component, set_component_lim. destruct (bad_index c i); eauto.
    exfalso. assert (i < 0 \/ Z.of_nat (List.length (comps c)) <= i) by tauto. lia.
Qed.
End C03.

(** ** C04 *)
Lemma small_n n : {small n} + {~ small n}.
Proof. unfold small. destruct (Z_le_dec (Z.abs n) 16777216); auto. Qed.

Ltac sm := apply small_lia; lia.

Lemma fz_val o n : small n -> is_finite (@fz f32 (F32 o) n) = true /\ fval (@fz f32 (F32 o) n) = IZR n.
Proof. intros S. rewrite fz32. destruct (lit32_int n S). auto. Qed.

Lemma alpha_range o (c : color f32) : @alpha_ok f32 (F32 o) c ->
  in_interval 0 (alpha_max (cls c)) (@alpha f32 (F32 o) c).
Proof.
  intros A. unfold alpha_ok in A. apply (within_in_interval o) in A; try sm.
  destruct (fz_val o 255) as [F2 V2]; [sm|]. destruct A as [FA RA].
  assert (M : in_interval 0 255 (@fmul f32 (F32 o) (m_alpha c) (@fz f32 (F32 o) 255))).
  { cbn [fmul F32].
    assert (B : (IZR 0 <= fval (m_alpha c) * fval (@fz f32 (F32 o) 255) <= IZR 255)%R) by (rewrite V2; lra).
    destruct (Bmult_ok _ _ 0 255 FA F2) as [P Q]; try sm; auto.
    split; auto. rewrite Q. apply rnd32_bounds; try sm. exact B. }
  unfold alpha, base_alpha, alpha_max. destruct (cls c); cbn [eight_bit]; try exact M; split; auto.
Qed.

Lemma eight_bit_alpha o (c : color f32) : @reachable f32 (F32 o) c -> eight_bit (cls c) = true ->
  in_interval 0 255 (@alpha f32 (F32 o) c).
Proof.
  intros H E. apply reachable_inv in H. destruct H as [_ A]. specialize (A E).
  apply alpha_range in A. unfold alpha_max in A. rewrite E in A. exact A.
Qed.

Lemma alpha_setter_clamps o (c : color f32) a :
  in_interval 0 (alpha_max (cls c)) (@alpha f32 (F32 o) (@alpha_set f32 (F32 o) c a)).
Proof.
  pose proof (alpha_range o _ (@alpha_set_ok f32 (F32 o) _ c a)) as H.
  destruct (@alpha_set_fields f32 (F32 o) c a) as [K _]. rewrite K in H. exact H.
Qed.

(** ** C06 *)
Lemma comps_equal_true o l r : @comps_equal f32 (F32 o) l r = true <-> Forall2 (fun x y => Beqb x y = true) l r.
Proof.
  revert r. induction l as [|a l IH]; intros [|b r]; cbn [comps_equal feq F32].
  - split; auto.
  - split; [discriminate|]. intros H; inversion H.
  - split; [discriminate|]. intros H; inversion H.
  - destruct (Beqb a b) eqn:E; cbn [negb].
    + rewrite IH. split; [auto|]. intros H; inversion H; auto.
    + split; [discriminate|]. intros H; inversion H. congruence.
Qed.

Definition all_finite (c : color f32) : Prop := Forall (fun x => is_finite x = true) (comps c).

Lemma reachable_finite o c : @reachable f32 (F32 o) c -> all_finite c.
Proof.
  intros H. destruct (components_in_range o c H) as [_ [_ [_ R]]].
  apply Forall_forall. intros x Hx. apply In_nth_error in Hx. destruct Hx as [i Hi]. apply (R i x Hi).
Qed.

Lemma color_eq_iff o (a b : color f32) : all_finite a -> all_finite b ->
  @color_eq f32 (F32 o) a b = true <-> ty a = ty b /\ map fval (comps a) = map fval (comps b).
Proof.
  intros Fa Fb. unfold color_eq, ctype_eqb.
  assert (M : Forall2 (fun x y => Beqb x y = true) (comps a) (comps b) <-> map fval (comps a) = map fval (comps b)).
  { unfold all_finite in *. revert Fb. generalize (comps b). induction (comps a) as [|x l IH]; intros [|y r] Fb; simpl.
    - split; auto.
    - split; intros H; inversion H.
    - split; intros H; inversion H.
    - inversion Fa; subst. inversion Fb; subst.
      split; intros H.
      + inversion H; subst. rewrite Beqb_fin in * by assumption. f_equal.
        * destruct (Req_bool_spec (fval x) (fval y)); auto; discriminate.
        * apply IH; auto.
      + injection H as H5 H6. constructor.
        * rewrite Beqb_fin by assumption. apply Req_bool_true; auto.
        * apply IH; auto. }
  destruct (ctype_eq_dec (ty a) (ty b)) as [E|E]; cbn [andb].
  - destruct (Nat.eqb_spec (List.length (comps a)) (List.length (comps b))) as [L|L]; cbn [negb].
    + rewrite comps_equal_true, M. tauto.
    + split; [discriminate|]. intros [_ H]. exfalso. apply L.
      apply (f_equal (@List.length R)) in H. rewrite !map_length in H. exact H.
  - split; [discriminate|tauto].
Qed.

(** ** C07 *)
Lemma zip_add_length {F} {AF : Arith F} mx mn (l r : list F) :
  List.length l = List.length r -> List.length (zip_add mx mn l r) = List.length l.
Proof. revert r. induction l; intros [|]; simpl; intros; auto; discriminate. Qed.

Lemma zip_add_nth {F} {AF : Arith F} mx mn (l r : list F) i x y :
  nth_error l i = Some x -> nth_error r i = Some y -> nth_error (zip_add mx mn l r) i = Some (clamp (fadd x y) mx mn).
Proof.
  revert r i. induction l as [|a l IH]; intros [|b r] [|i]; simpl; intros H1 H2; try discriminate.
  - congruence.
  - apply IH; auto.
Qed.

Lemma add_throws o (a b : color f32) : @color_add f32 (F32 o) a b = Throw (by_pointer invalid_argument) <->
  (ty a <> ty b \/ List.length (comps a) <> List.length (comps b)).
Proof.
  unfold color_add, ctype_eqb.
  destruct (ctype_eq_dec (ty a) (ty b)); cbn [andb].
  - destruct (Nat.eqb_spec (List.length (comps a)) (List.length (comps b))).
    + split; [discriminate|]. tauto.
    + tauto.
  - tauto.
Qed.

Lemma add_result o (a b : color f32) : @reachable f32 (F32 o) a -> @reachable f32 (F32 o) b -> ty a = ty b ->
  exists s, @color_add f32 (F32 o) a b = Ok s /\ ty s = ty a /\ rgb_space s = rgb_space a /\
    @alpha f32 (F32 o) s = @alpha f32 (F32 o) a /\
    List.length (comps s) = List.length (comps a) /\
    forall i x y, nth_error (comps a) i = Some x -> nth_error (comps b) i = Some y ->
      comp_sat s i (fun z => is_value z
        (Rmax (Rmin (rnd32 (fval x + fval y)) (IZR (snd (limits (cls a))))) (IZR (fst (limits (cls a)))))).
Proof.
  intros Ha Hb E.
  pose proof (reachable_inv _ Ha) as [Wa _]. pose proof (reachable_inv _ Hb) as [Wb _].
  destruct (components_in_range o a Ha) as [_ [Ta [La Ra]]].
  destruct (components_in_range o b Hb) as [_ [Tb [Lb Rb]]].
  assert (K : cls b = cls a) by congruence.
  assert (L : List.length (comps a) = List.length (comps b)) by congruence.
  unfold color_add, ctype_eqb. destruct (ctype_eq_dec (ty a) (ty b)); [|contradiction].
  rewrite L, Nat.eqb_refl. cbn [andb].
  eexists. split; [reflexivity|]. cbn [ty rgb_space comps with_comps with_type color_base_ctor alpha cls base_alpha m_alpha].
  split; auto. split; auto. split; auto. split; [rewrite zip_add_length; auto|].
  intros i x y Hx Hy. unfold comp_sat. cbn [comps with_comps].
  rewrite (zip_add_nth _ _ _ _ _ _ _ Hx Hy). eexists. split; [reflexivity|].
  specialize (Ra i x Hx). specialize (Rb i y Hy). rewrite K in Rb.
  destruct (small_range (cls a) i) as [S1 [S2 S3]].
  destruct (small_limits (cls a)) as [S4 [S5 S6]].
  destruct Ra as [Fx Rx]. destruct Rb as [Fy Ry].
  assert (P : is_finite (@fadd f32 (F32 o) x y) = true /\ fval (@fadd f32 (F32 o) x y) = rnd32 (fval x + fval y)).
  { cbn [fadd F32]. apply (Bplus_ok x y (fst (comp_range (cls a) i) + fst (comp_range (cls a) i)) (snd (comp_range (cls a) i) + snd (comp_range (cls a) i))); auto.
    - destruct (cls a); simpl; try sm; destruct i as [|[|[|]]]; simpl; sm.
    - destruct (cls a); simpl; try sm; destruct i as [|[|[|]]]; simpl; sm.
    - rewrite !plus_IZR. lra. }
  destruct P as [P1 P2]. rewrite clamp_F32. rewrite (wf_max _ _ Wa), (wf_min _ _ Wa).
  destruct (fz_val o _ S5) as [F5 V5]. destruct (fz_val o _ S4) as [F4 V4].
  assert (V45 : (fval (@fz f32 (F32 o) (fst (limits (cls a)))) <= fval (@fz f32 (F32 o) (snd (limits (cls a)))))%R).
  { rewrite V4, V5. apply IZR_le. exact S6. }
  split.
  - apply clamp32_range; auto.
  - rewrite clamp32_val by auto. rewrite P2, V4, V5. reflexivity.
Qed.

(** ** C09, C10, C11 *)
Lemma copy_preserves {F} {AF : Arith F} (c : color F) :
  cls (copy_ctor (cls c) c) = cls c /\ ty (copy_ctor (cls c) c) = ty c /\
  comps (copy_ctor (cls c) c) = comps c /\ m_max (copy_ctor (cls c) c) = m_max c /\
  m_min (copy_ctor (cls c) c) = m_min c /\ rgb_space (copy_ctor (cls c) c) = rgb_space c.
Proof. apply copy_ctor_fields. Qed.

Lemma copy_alpha_same {F} {AF : Arith F} {AL : ArithLaws F} (c : color F) :
  eight_bit (cls c) = false -> alpha_ok c -> m_alpha (copy_ctor (cls c) c) = m_alpha c.
Proof.
  intros E A. unfold copy_ctor, alpha_set, with_comps, with_type, color_base_ctor. cbn [cls].
  assert (H : clamp (m_alpha c) (fz 1) (fz 0) = m_alpha c) by (apply clamp_id; try sm; exact A).
  unfold alpha. destruct (cls c); try discriminate; exact H.
Qed.

Lemma copy_alpha_same_R (c : color R) :
  @alpha_ok R RArith c -> m_alpha (@copy_ctor R RArith (cls c) c) = m_alpha c.
Proof.
  intros A. destruct (eight_bit (cls c)) eqn:E; [|apply copy_alpha_same; auto].
  assert (H : clamp (fdiv (fmul (m_alpha c) (fz 255)) (fz 255)) (fz 1) (fz 0) = m_alpha c).
  { cbn [fdiv fmul RArith]. rewrite !fzR. replace (m_alpha c * 255 / 255)%R with (m_alpha c) by field.
    pose proof (clamp_id (m_alpha c) 0 1) as I. rewrite !fzR in I. apply I; try sm. exact A. }
  unfold copy_ctor, alpha_set, with_comps, with_type, color_base_ctor, alpha. cbn [cls].
  destruct (cls c); try discriminate; exact H.
Qed.

Lemma from_base_ok o k (c : color f32) : @reachable f32 (F32 o) c -> In k all_types ->
  ~ In k [RGB_TRUE; RGB_DEEP; GREY_TRUE; CIELUV] ->
  (ty c = k -> exists c', @from_base_ctor f32 (F32 o) k c = Ok c' /\ cls c' = k /\ ty c' = k /\
     comps c' = comps c /\ @alpha f32 (F32 o) c' = @alpha f32 (F32 o) c /\ rgb_space c' = rgb_space c) /\
  (ty c <> k -> @from_base_ctor f32 (F32 o) k c = Throw (by_pointer invalid_argument)).
Proof.
  intros H I N. destruct (components_in_range o c H) as [_ [T [L _]]].
  unfold from_base_ctor, ctype_eqb. destruct (ctype_eq_dec (ty c) k) as [E|E].
  - split; [intros _|contradiction].
    assert (K : cls c = k) by congruence. rewrite K in L. rewrite L.
    replace (Nat.eqb (arity k) (from_base_size k)) with true
      by (simpl in I, N; destruct k; try reflexivity; exfalso; intuition discriminate).
    cbn [andb]. eexists. split; [reflexivity|]. repeat split; auto.
    unfold alpha at 1. cbn [cls with_comps with_type color_base_ctor base_alpha m_alpha].
    simpl in N. destruct k; try reflexivity; exfalso; intuition discriminate.
  - split; [contradiction|]. auto.
Qed.

Lemma from_base_fails o (c : color f32) : @reachable f32 (F32 o) c ->
  In (cls c) [RGB_TRUE; RGB_DEEP; GREY_TRUE; CIELUV] ->
  @from_base_ctor f32 (F32 o) (cls c) c = Throw (by_pointer invalid_argument).
Proof.
  intros H I. destruct (components_in_range o c H) as [_ [T [L _]]].
  unfold from_base_ctor. rewrite L.
  replace (Nat.eqb (arity (cls c)) (from_base_size (cls c))) with false.
  - rewrite andb_false_r. reflexivity.
  - simpl in I. destruct I as [I|[I|[I|[I|[]]]]]; rewrite <- I; reflexivity.
Qed.

(** ** C15, C16 *)
Lemma alpha_ops_frame {F} {AF : Arith F} (c : color F) :
  (forall c', c' = alpha_multiply c \/ c' = alpha_divide c ->
    cls c' = cls c /\ ty c' = ty c /\ m_alpha c' = m_alpha c /\ m_max c' = m_max c /\ m_min c' = m_min c /\
    rgb_space c' = rgb_space c /\ List.length (comps c') = List.length (comps c)).
Proof.
  intros c' [->| ->].
  - unfold alpha_multiply. cbn. rewrite map_length. auto 10.
  - unfold alpha_divide. destruct (feq (m_alpha c) (fz 0)); cbn; try rewrite map_length; auto 10.
Qed.

Lemma alpha_mul_div (c : color R) : m_alpha c <> 0%R -> @alpha_divide R RArith (@alpha_multiply R RArith c) = c.
Proof.
  intros N. unfold alpha_divide, alpha_multiply. cbn [feq RArith m_alpha with_comps comps]. rewrite fzR.
  destruct (Reqb (m_alpha c) 0) eqn:E; [apply Reqb_true in E; contradiction|].
  unfold with_comps. cbn. rewrite map_map. destruct c as [k t l a mx mn sp]. cbn in *. f_equal.
  rewrite <- (map_id l) at 2. apply map_ext. intros x. field. exact N.
Qed.

Lemma alpha_div_zero {F} {AF : Arith F} (c : color F) : feq (m_alpha c) (fz 0) = true -> alpha_divide c = c.
Proof. intros H. unfold alpha_divide. rewrite H. reflexivity. Qed.

Lemma alpha_multiply_range o (c : color f32) :
  @reachable f32 (F32 o) c -> in_interval 0 1 (m_alpha c) -> ~ In (cls c) [LAB; CIELUV] ->
  forall i x, nth_error (comps (@alpha_multiply f32 (F32 o) c)) i = Some x ->
    in_interval (fst (comp_range (cls c) i)) (snd (comp_range (cls c) i)) x.
Proof.
  intros H [FA RA] N i x Hx. destruct (components_in_range o c H) as [_ [_ [_ R]]].
  unfold alpha_multiply in Hx. cbn [comps with_comps] in Hx. rewrite nth_error_map in Hx.
  destruct (nth_error (comps c) i) as [v|] eqn:Nv; [|discriminate]. cbn [option_map] in Hx. injection Hx as <-.
  destruct (R i v Nv) as [Fv Rv]. destruct (small_range (cls c) i) as [S1 [S2 S3]].
  assert (Z0 : fst (comp_range (cls c) i) = 0).
  { simpl in N. destruct (cls c); try (exfalso; intuition discriminate); simpl; auto; destruct i as [|[|[|]]]; auto. }
  rewrite Z0 in *.
  set (hi := snd (comp_range (cls c) i)) in *.
  assert (B : (IZR 0 <= fval v * fval (m_alpha c) <= IZR hi)%R).
  { split; [apply Rmult_le_pos; lra|]. apply Rle_trans with (fval v * 1)%R; [|lra].
    apply Rmult_le_compat_l; lra. }
  cbn [fmul F32]. destruct (Bmult_ok v (m_alpha c) 0 hi Fv FA S1 S2 B) as [P Q].
  split; auto. rewrite Q. apply rnd32_bounds; auto.
Qed.
