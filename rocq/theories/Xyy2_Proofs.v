(** * XYZ to xyY: colours without luminance, and an example (C219) *)
From Coq Require Import ZArith QArith Reals Lra Lia List Bool.
From Flocq Require Import Core IEEE754.BinarySingleNaN.
From Verif Require Import Arith Outcome ColorModel GammaModel MatrixModel SpaceModel Heap Converter F32 F32Facts RArith Spec Spec32 Laws NormalForms
  Core_Proofs Core2_Proofs Core3_Proofs Core4_Proofs Spec_Conv Spec_Round Conv_Proofs Run_Proofs HueR_Proofs Round_Proofs Round3_Proofs Blend2_Proofs.
Import ListNotations.
Local Open Scope R_scope.

Lemma xyy_dark (h : heap R) p c x z : at_addr h p c -> wf_color XYZ c -> comps c = [x; 0; z] -> 0 < x + z ->
  via to_xyy to_xyz h p (fun m d => comps m = [x / (x + z); 0; 0] /\ comps d = [0; 0; 0]).
Proof.
  intros Hp W Ec Ps. destruct (xyz_range c x 0 z W Ec) as [Bx [_ Bz]].
  assert (Q : 0 <= x / (x + z) <= 1).
  { split; [apply Rmult_le_pos; [lra|left; apply Rinv_0_lt_compat; lra]|]. apply Rmult_le_reg_r with (x + z); [lra|]. unfold Rdiv. rewrite Rmult_assoc, Rinv_l by lra. lra. }
  pose (m := Color XYY XYY [x / (x + z); 0; 0] (m_alpha c) 100 0 (rgb_space c)).
  assert (Hm : at_addr (pushed h m) (length (colors h)) m) by apply at_new.
  assert (Wm : wf_color XYY m).
  { destruct (xyy_made (AF := RArith) (x / (x + z)) 0 0 (m_alpha c) (rgb_space c)) as [m' [E [Wm _]]].
    rewrite xyy_nf in E. rewrite !c100R in E by lra. rewrite !fzR in E. injection E as <-. exact Wm. }
  exists (length (colors h)), (length (colors (pushed h m))), m, (Color XYZ XYZ [0; 0; 0] (m_alpha c) 100 0 (rgb_space c)), (pushed h m),
    (pushed (pushed h m) (Color XYZ XYZ [0; 0; 0] (m_alpha c) 100 0 (rgb_space c))).
  split.
  { assert (D : dispatches to_xyy XYZ xyz_to_xyy) by disp. rewrite (D h p c Hp (wf_ty _ _ W)).
    unfold xyz_to_xyy, bind. rewrite (load_as_ok h p c XYZ Hp W). rewrite Ec. rn.
    assert (B : Reqb x 0 && Reqb 0 0 && Reqb z 0 = false).
    { destruct (Req_EM_T x 0) as [Zx|Zx]; [rewrite (Reqb_ne z 0) by lra; apply andb_false_r|rewrite (Reqb_ne x 0) by exact Zx; reflexivity]. }
    rewrite B. replace (x + 0 + z) with (x + z) by ring. replace (0 / (x + z)) with 0 by (unfold Rdiv; ring). rewrite xyy_nf. unfold lift.
    rewrite !c100R by lra. rewrite !fzR. rewrite (alpha_std c _ W eq_refl). reflexivity. }
  split; [exact Hm|]. split.
  { assert (D : dispatches to_xyz XYY (leaf XYY xyy_to_xyz_f)) by disp. rewrite (D _ _ _ Hm eq_refl).
    apply (leaf_run XYY xyy_to_xyz_f _ _ m _ Hm Wm).
    unfold xyy_to_xyz_f, with3, m. cbn [comps]. rn. rewrite Reqb_eq by reflexivity. apply xyz_eq; lra. }
  split; [apply at_new|]. split; reflexivity.
Qed.

Lemma xyz_123 o : exists (h : heap f32) (c : color f32) x y z, at_addr h 0%nat c /\ @wf_color f32 (F32 o) XYZ c /\ comps c = [x; y; z] /\ B2R x = 1 /\ B2R y = 2 /\ B2R z = 3.
Proof.
  assert (V : forall n, (1 <= n <= 3)%Z -> is_finite (@fz f32 (F32 o) n) = true /\ B2R (@fz f32 (F32 o) n) = IZR n) by (intros n Hn; exact (fz_val o n ltac:(sm))).
  assert (I : forall n, (1 <= n <= 3)%Z -> @c100 f32 (F32 o) (@fz f32 (F32 o) n) = @fz f32 (F32 o) n).
  { intros n Hn. destruct (V n Hn) as [F E]. unfold c100. apply clamp_id; try sm. apply within32; try sm. split; [exact F|]. change (B2R (@fz f32 (F32 o) n)) with (fval (@fz f32 (F32 o) n)) in E. rewrite E.
    destruct Hn as [A B]. apply IZR_le in A, B. lra. }
  destruct (xyz_made (AF := F32 o) (AL := F32Laws o) (@fz f32 (F32 o) 1) (@fz f32 (F32 o) 2) (@fz f32 (F32 o) 3) (@fz f32 (F32 o) 1) None) as [c [Ec [WF _]]].
  rewrite xyz_nf in Ec. rewrite !I in Ec by lia. apply Ok_inj in Ec.
  exists (Heap [c] []), c, (@fz f32 (F32 o) 1), (@fz f32 (F32 o) 2), (@fz f32 (F32 o) 3). split; [reflexivity|]. split; [exact WF|]. split; [rewrite <- Ec; reflexivity|].
  split; [apply V; lia|]. split; [apply V; lia|apply V; lia].
Qed.
Lemma xyz_dark_example : exists (h : heap R) c, at_addr h 0%nat c /\ wf_color XYZ c /\ comps c = [1; 0; 2].
Proof.
  destruct (xyz_made (AF := RArith) 1 0 2 1 None) as [c [Ec [WF _]]]. rewrite (xyz_eq 1 0 2) in Ec by (reflexivity || lra). injection Ec as <-.
  eexists (Heap [_] []), _. split; [reflexivity|]. split; [exact WF|reflexivity].
Qed.
