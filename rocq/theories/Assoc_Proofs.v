(** * Algebra of the Porter-Duff operators in exact arithmetic (C187) *)
From Coq Require Import ZArith Reals Lra Lia List Bool.
From Verif Require Import Arith Outcome ColorModel Heap Converter Calculation Blend
  Spec RArith Laws NormalForms Core_Proofs Spec_Conv Spec_Calc Spec_Blend Spec_Algebra
  Conv_Proofs Conv2_Proofs Conv3_Proofs HueR_Proofs Calc_Proofs Blend_Proofs Blend2_Proofs Blend3_Proofs.
Import ListNotations.
Local Open Scope R_scope.

(** The result of an operator is a deep colour to which the operators can be applied again. *)
Lemma pd_again p (h : heap R) p1 c1 p2 c2 : at_addr h p1 c1 -> at_addr h p2 c2 -> wf_color RGB_DEEP c1 -> wf_color RGB_DEEP c2 ->
  0 <= alpha c1 <= 1 -> 0 <= alpha c2 <= 1 -> rgb_space c1 = rgb_space c2 ->
  exists q r h', composite p (Some p1) (Some p2) h = (Ok (Some q), h') /\ at_addr h' q r /\ pd_result p c1 c2 r /\
    wf_color RGB_DEEP r /\ 0 <= alpha r <= 1 /\ rgb_space r = rgb_space c1 /\ unchanged h h'.
Proof.
  intros H1 H2 W1 W2 A1 A2 SP.
  destruct (pd_formula p h p1 c1 p2 c2 H1 H2 W1 W2 A1 A2 SP) as [q [r [h' [E [Aq P]]]]].
  exists q, r, h'. split; [exact E|]. split; [exact Aq|]. split; [exact P|].
  rewrite composite_checked in E.
  destruct (checked_deep (op_s p) (op_d p) (op_b p) (op_f p) h RGB_DEEP RGB_DEEP p1 c1 p2 c2 H1 H2 W1 W2 SP ltac:(discriminate))
    as [s [d [r1 [h1 [q1 [Er [Ws [Wd [E1 [E2 [_ [_ [Dr [Sr [U [Fq [Aq1 E']]]]]]]]]]]]]]]]].
  assert (E3 : convertTo (Some q1) RGB_DEEP h1 = (Ok (Some q1), h1)).
  { cbn [convertTo]. unfold to_rgb_deep, bind, load. unfold at_addr in Aq1. rewrite Aq1, (ds_ty r1 Dr).
    unfold cast, bind. rewrite (load_shape h1 q1 r1 Aq1 Dr). reflexivity. }
  assert (Q : q = q1 /\ h' = h1). { rewrite E', E3 in E. injection E as Eq Eh. auto. }
  destruct Q as [-> ->].
  assert (r = r1) as ->. { unfold at_addr in Aq, Aq1. congruence. }
  unfold pd_result in P. destruct (fractions p (alpha c1) (alpha c2)) as [fa fb]. destruct P as [T [L [S [A [AR C]]]]].
  split; [|split; [exact AR|split; assumption]].
  constructor; try discriminate.
  - apply Dr. - apply Dr. - exact L. - apply Dr. - apply Dr.
  - intros i v Hv. assert (Li : (i < 3)%nat) by (rewrite <- L; apply nth_error_Some; congruence).
    destruct (nth3 c1 i v W1 Li) as [s0 Es]. destruct (nth3 c2 i v W2 Li) as [d0 Ed].
    destruct (C i s0 d0 v Es Ed Hv) as [_ [B _]].
    destruct i as [|[|[|]]]; [| | |lia]; apply withinR; simpl; lra.
Qed.

Lemma pd_nested p (c1 c2 c3 r12 r23 rl rr : color R) : associative p = true ->
  wf_color RGB_DEEP c1 -> wf_color RGB_DEEP c2 -> wf_color RGB_DEEP c3 -> wf_color RGB_DEEP r12 -> wf_color RGB_DEEP r23 ->
  pd_result p c1 c2 r12 -> pd_result p r12 c3 rl -> pd_result p c2 c3 r23 -> pd_result p c1 r23 rr ->
  comps rl = comps rr /\ alpha rl = alpha rr.
Proof.
  intros K W1 W2 W3 W12 W23. unfold pd_result.
  destruct p; try discriminate K; cbn [fractions];
    (intros [_ [L12 [_ [A12 [_ C12]]]]] [_ [Ll [_ [Al [_ Cl]]]]] [_ [L23 [_ [A23 [_ C23]]]]] [_ [Lr [_ [Ar [_ Cr]]]]];
     assert (E : alpha rl = alpha rr) by (rewrite Al, Ar, A12, A23; ring);
     split; [|exact E];
     apply comps_ext; [exact Ll|exact Lr|]; intros i v w Hv Hw; pose proof (nth_lt _ _ _ Hv) as Li; rewrite Ll in Li;
     destruct (nth3 c1 i v W1 Li) as [x Ex]; destruct (nth3 c2 i v W2 Li) as [y Ey]; destruct (nth3 c3 i v W3 Li) as [z Ez];
     destruct (nth3 r12 i v W12 Li) as [u Eu]; destruct (nth3 r23 i v W23 Li) as [t Et];
     destruct (C12 i x y u Ex Ey Eu) as [P12 _]; destruct (C23 i y z t Ey Ez Et) as [P23 _];
     destruct (Cl i u z v Eu Ez Hv) as [Pl [_ Zl]]; destruct (Cr i x t w Ex Et Hw) as [Pr [_ Zr]];
     destruct (Req_dec (alpha rl) 0) as [Z|Z]; [rewrite Zl, Zr by congruence; reflexivity|];
     apply Rmult_eq_reg_l with (alpha rl); [|exact Z]; rewrite Pl, E, Pr;
     rewrite !(Rmult_assoc _ (alpha r12) u), !(Rmult_assoc _ (alpha r23) t), P12, P23; try rewrite A12; try rewrite A23; ring).
Qed.

Lemma pd_associative p (h : heap R) p1 c1 p2 c2 p3 c3 : associative p = true ->
  at_addr h p1 c1 -> at_addr h p2 c2 -> at_addr h p3 c3 ->
  wf_color RGB_DEEP c1 -> wf_color RGB_DEEP c2 -> wf_color RGB_DEEP c3 ->
  0 <= alpha c1 <= 1 -> 0 <= alpha c2 <= 1 -> 0 <= alpha c3 <= 1 ->
  rgb_space c1 = rgb_space c2 -> rgb_space c2 = rgb_space c3 ->
  returns (bind (composite p (Some p1) (Some p2)) (fun q => composite p q (Some p3))) h (fun r =>
    returns (bind (composite p (Some p2) (Some p3)) (fun q => composite p (Some p1) q)) h (fun r' =>
      comps r = comps r' /\ alpha r = alpha r')).
Proof.
  intros K H1 H2 H3 W1 W2 W3 A1 A2 A3 S12 S23.
  destruct (pd_again p h p1 c1 p2 c2 H1 H2 W1 W2 A1 A2 S12) as [q [r12 [ha [Ea [Qa [Pa [Wa [Aa [Sa Ua]]]]]]]]].
  destruct (pd_again p ha q r12 p3 c3 Qa (proj2 Ua _ _ H3) Wa W3 Aa A3 ltac:(congruence)) as [ql [rl [hl [El [Ql [Pl _]]]]]].
  destruct (pd_again p h p2 c2 p3 c3 H2 H3 W2 W3 A2 A3 S23) as [q' [r23 [hb [Eb [Qb [Pb [Wb [Ab [Sb Ub]]]]]]]]].
  destruct (pd_again p hb p1 c1 q' r23 (proj2 Ub _ _ H1) Qb W1 Wb A1 Ab ltac:(congruence)) as [qr [rr [hr [Er [Qr [Pr _]]]]]].
  exists ql, rl, hl. split; [unfold bind; rewrite Ea; exact El|]. split; [exact Ql|].
  exists qr, rr, hr. split; [unfold bind; rewrite Eb; exact Er|]. split; [exact Qr|].
  exact (pd_nested p c1 c2 c3 r12 r23 rl rr K W1 W2 W3 Wa Wb Pa Pl Pb Pr).
Qed.

(** A transparent colour over, under or beside another one shows nothing. *)
Lemma pd_transparent p (h : heap R) p1 c1 p2 c2 : In p [Over; DestOver; Xor] ->
  at_addr h p1 c1 -> at_addr h p2 c2 -> wf_color RGB_DEEP c1 -> wf_color RGB_DEEP c2 ->
  alpha c1 = 0 -> 0 < alpha c2 <= 1 -> rgb_space c1 = rgb_space c2 ->
  returns (composite p (Some p1) (Some p2)) h (fun r => comps r = comps c2 /\ alpha r = alpha c2) /\
  returns (composite p (Some p2) (Some p1)) h (fun r => comps r = comps c2 /\ alpha r = alpha c2).
Proof.
  intros K H1 H2 W1 W2 A1 A2 SP. split.
  - apply (returns_impl _ _ _ _ (pd_formula p h p1 c1 p2 c2 H1 H2 W1 W2 ltac:(lra) ltac:(lra) SP)). intros r P. unfold pd_result in P.
    assert (E : alpha r = alpha c2). { destruct K as [<-|[<-|[<-|[]]]]; cbn [fractions] in P; rewrite ?A1 in P; destruct P as [_ [_ [_ [A _]]]]; lra. }
    split; [|exact E].
    destruct (fractions p (alpha c1) (alpha c2)) as [fa fb] eqn:Fr. destruct P as [_ [L [_ [A [_ C]]]]].
    apply comps_ext; [exact L|apply (wf_len _ _ W2)|]. intros i v w Hv Hw. pose proof (nth_lt _ _ _ Hv) as Li. rewrite L in Li.
    destruct (nth3 c1 i v W1 Li) as [s Es]. destruct (C i s w v Es Hw Hv) as [P _].
    apply Rmult_eq_reg_l with (alpha c2); [|lra]. rewrite <- E at 1. rewrite P, A1.
    destruct K as [<-|[<-|[<-|[]]]]; cbn [fractions] in Fr; rewrite ?A1 in Fr; injection Fr as <- <-; ring.
  - apply (returns_impl _ _ _ _ (pd_formula p h p2 c2 p1 c1 H2 H1 W2 W1 ltac:(lra) ltac:(lra) (eq_sym SP))). intros r P. unfold pd_result in P.
    assert (E : alpha r = alpha c2). { destruct K as [<-|[<-|[<-|[]]]]; cbn [fractions] in P; rewrite ?A1 in P; destruct P as [_ [_ [_ [A _]]]]; lra. }
    split; [|exact E].
    destruct (fractions p (alpha c2) (alpha c1)) as [fa fb] eqn:Fr. destruct P as [_ [L [_ [A [_ C]]]]].
    apply comps_ext; [exact L|apply (wf_len _ _ W2)|]. intros i v w Hv Hw. pose proof (nth_lt _ _ _ Hv) as Li. rewrite L in Li.
    destruct (nth3 c1 i v W1 Li) as [s Es]. destruct (C i w s v Hw Es Hv) as [P _].
    apply Rmult_eq_reg_l with (alpha c2); [|lra]. rewrite <- E at 1. rewrite P, A1.
    destruct K as [<-|[<-|[<-|[]]]]; cbn [fractions] in Fr; rewrite ?A1 in Fr; injection Fr as <- <-; ring.
Qed.

(** A colour laid over itself keeps its components and covers more. *)
Lemma over_self (h : heap R) p1 c1 : at_addr h p1 c1 -> wf_color RGB_DEEP c1 -> 0 < alpha c1 <= 1 ->
  returns (over (Some p1) (Some p1)) h (fun r => comps r = comps c1 /\ alpha r = 1 - (1 - alpha c1) * (1 - alpha c1)).
Proof.
  intros H1 W1 A1.
  apply (returns_impl _ _ _ _ (pd_formula Over h p1 c1 p1 c1 H1 H1 W1 W1 ltac:(lra) ltac:(lra) eq_refl)). intros r [T [L [S [A [_ C]]]]].
  assert (E : alpha r = 1 - (1 - alpha c1) * (1 - alpha c1)) by (rewrite A; ring). split; [|exact E].
  apply comps_ext; [exact L|apply (wf_len _ _ W1)|]. intros i v w Hv Hw. destruct (C i w w v Hw Hw Hv) as [P _].
  assert (Z : alpha r <> 0). { rewrite E. assert (0 <= (1 - alpha c1) * (1 - alpha c1) < 1) by (split; nra). lra. }
  apply Rmult_eq_reg_l with (alpha r); [|exact Z]. rewrite P, E. ring.
Qed.

(** Three half transparent layers, one white and two black, for the other operators. *)
Lemma pd_layers x y z : 0 <= x <= 1 -> 0 <= y <= 1 -> 0 <= z <= 1 ->
  exists (h : heap R) c1 c2 c3, at_addr h 0%nat c1 /\ at_addr h 1%nat c2 /\ at_addr h 2%nat c3 /\
    wf_color RGB_DEEP c1 /\ wf_color RGB_DEEP c2 /\ wf_color RGB_DEEP c3 /\ alpha c1 = 1 / 2 /\ alpha c2 = 1 / 2 /\ alpha c3 = 1 / 2 /\
    rgb_space c1 = rgb_space c2 /\ rgb_space c2 = rgb_space c3 /\ comps c1 = [x; x; x] /\ comps c2 = [y; y; y] /\ comps c3 = [z; z; z].
Proof.
  intros X Y Z.
  destruct (rgb_deepcolor_made (AF := RArith) (AL := RLaws) x x x (1 / 2) None) as [c1 [E1 [W1 [A1 S1]]]].
  destruct (rgb_deepcolor_made (AF := RArith) (AL := RLaws) y y y (1 / 2) None) as [c2 [E2 [W2 [A2 S2]]]].
  destruct (rgb_deepcolor_made (AF := RArith) (AL := RLaws) z z z (1 / 2) None) as [c3 [E3 [W3 [A3 S3]]]].
  exists (Heap [c1; c2; c3] []), c1, c2, c3. split; [reflexivity|]. split; [reflexivity|]. split; [reflexivity|].
  split; [exact W1|]. split; [exact W2|]. split; [exact W3|].
  unfold alpha. rewrite (wf_cls _ _ W1), (wf_cls _ _ W2), (wf_cls _ _ W3). split; [exact A1|]. split; [exact A2|]. split; [exact A3|].
  split; [congruence|]. split; [congruence|].
  rewrite rgb_deepcolor_nf in E1, E2, E3. apply Ok_inj in E1. apply Ok_inj in E2. apply Ok_inj in E3. rewrite <- E1, <- E2, <- E3. cbn [comps]. rewrite !c01R by lra. auto.
Qed.

Definition white_first (p : operator) : R := match p with DestAtop | DestOut => 0 | _ => 1 end.
Lemma pd_not_associative p : associative p = false -> exists (h : heap R) c1 c2 c3,
  at_addr h 0%nat c1 /\ at_addr h 1%nat c2 /\ at_addr h 2%nat c3 /\
  wf_color RGB_DEEP c1 /\ wf_color RGB_DEEP c2 /\ wf_color RGB_DEEP c3 /\ alpha c1 = 1 / 2 /\ alpha c2 = 1 / 2 /\ alpha c3 = 1 / 2 /\
  rgb_space c1 = rgb_space c2 /\ rgb_space c2 = rgb_space c3 /\
  returns (bind (composite p (Some 0%nat) (Some 1%nat)) (fun q => composite p q (Some 2%nat))) h (fun r =>
    returns (bind (composite p (Some 1%nat) (Some 2%nat)) (fun q => composite p (Some 0%nat) q)) h (fun r' =>
      comps r <> comps r' \/ alpha r <> alpha r')).
Proof.
  intros K. set (w := white_first p). assert (Bw : w = 0 \/ w = 1) by (unfold w; destruct p; auto).
  destruct (pd_layers w 0 (1 - w) ltac:(lra) ltac:(lra) ltac:(lra)) as [h [c1 [c2 [c3 [H1 [H2 [H3 [W1 [W2 [W3 [A1 [A2 [A3 [S12 [S23 [C1 [C2 C3]]]]]]]]]]]]]]]]].
  exists h, c1, c2, c3. repeat (split; [assumption|]).
  destruct (pd_again p h 0%nat c1 1%nat c2 H1 H2 W1 W2 ltac:(lra) ltac:(lra) S12) as [q [r12 [ha [Ea [Qa [Pa [Wa [Aa [Sa Ua]]]]]]]]].
  destruct (pd_again p ha q r12 2%nat c3 Qa (proj2 Ua _ _ H3) Wa W3 Aa ltac:(lra) ltac:(congruence)) as [ql [rl [hl [El [Ql [Pl [Wl _]]]]]]].
  destruct (pd_again p h 1%nat c2 2%nat c3 H2 H3 W2 W3 ltac:(lra) ltac:(lra) S23) as [q' [r23 [hb [Eb [Qb [Pb [Wb [Ab [Sb Ub]]]]]]]]].
  destruct (pd_again p hb 0%nat c1 q' r23 (proj2 Ub _ _ H1) Qb W1 Wb ltac:(lra) Ab ltac:(congruence)) as [qr [rr [hr [Er [Qr [Pr [Wr _]]]]]]].
  exists ql, rl, hl. split; [unfold bind; rewrite Ea; exact El|]. split; [exact Ql|].
  exists qr, rr, hr. split; [unfold bind; rewrite Eb; exact Er|]. split; [exact Qr|].
  assert (L0 : (0 < 3)%nat) by lia.
  destruct (nth3 r12 0 0 Wa L0) as [u Eu]. destruct (nth3 r23 0 0 Wb L0) as [t Et]. destruct (nth3 rl 0 0 Wl L0) as [v Ev]. destruct (nth3 rr 0 0 Wr L0) as [v' Ev'].
  assert (X : nth_error (comps c1) 0 = Some w) by (rewrite C1; reflexivity). assert (Y : nth_error (comps c2) 0 = Some 0) by (rewrite C2; reflexivity).
  assert (Z : nth_error (comps c3) 0 = Some (1 - w)) by (rewrite C3; reflexivity).
  unfold pd_result in *. destruct p; try discriminate K; cbn [fractions] in *; unfold w, white_first in *; clear w Bw;
    destruct Pa as [_ [_ [_ [Va [_ Ca]]]]]; destruct Pb as [_ [_ [_ [Vb [_ Cb]]]]]; destruct Pl as [_ [_ [_ [Vl [_ Cl]]]]]; destruct Pr as [_ [_ [_ [Vr [_ Cr]]]]];
    destruct (Ca _ _ _ _ X Y Eu) as [Da _]; destruct (Cb _ _ _ _ Y Z Et) as [Db _]; destruct (Cl _ _ _ _ Eu Z Ev) as [Dl _]; destruct (Cr _ _ _ _ X Et Ev') as [Dr _];
    rewrite A1, A2, A3 in *; rewrite Va in *; rewrite Vb in *; rewrite Vl in *; rewrite Vr in *.
  all: try (right; lra).
  all: left; intros Q; rewrite Q, Ev' in Ev; injection Ev as ->; lra.
Qed.
