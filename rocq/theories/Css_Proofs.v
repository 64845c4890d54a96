(** * The predefined colours are the named colours of CSS (C201) *)
From Coq Require Import ZArith List Bool String Lia.
From Verif Require Import Arith Outcome ColorModel HexModel F32 Spec Spec32 Spec_Css Hex_Proofs Core3_Proofs.
Import ListNotations.
Local Open Scope Z_scope.

Definition wanted : list (string * Z) := map (fun x => (fst x, opaque (snd x))) css_colors.
Definition same (x y : string * Z) : bool := String.eqb (fst x) (fst y) && (snd x =? snd y).
Lemma same_eq x y : same x y = true -> x = y.
Proof.
  destruct x as [a b], y as [c d]. unfold same. cbn. intros H. apply andb_true_iff in H. destruct H as [H1 H2].
  apply String.eqb_eq in H1. apply Z.eqb_eq in H2. congruence.
Qed.
Lemma subset (l m : list (string * Z)) : forallb (fun x => existsb (same x) m) l = true -> forall x, In x l -> In x m.
Proof.
  intros H x I. rewrite forallb_forall in H. specialize (H x I). apply existsb_exists in H. destruct H as [y [Iy E]].
  apply same_eq in E. subst. exact Iy.
Qed.
Lemma table_in : forallb (fun x => existsb (same x) (("Transparent"%string, 16777215) :: wanted)) hexcode_colors = true.
Proof. vm_compute. reflexivity. Qed.
Lemma table_all : forallb (fun x => existsb (same x) hexcode_colors) (("Transparent"%string, 16777215) :: wanted) = true.
Proof. vm_compute. reflexivity. Qed.
Lemma css_table n v : In (n, v) hexcode_colors <-> (n = "Transparent"%string /\ v = 16777215) \/ exists c, In (n, c) css_colors /\ v = opaque c.
Proof.
  split.
  - intros I. apply (subset _ _ table_in) in I. destruct I as [I|I]; [left; injection I as <- <-; auto|right].
    apply in_map_iff in I. destruct I as [[m c] [E I]]. injection E as <- <-. exists c. auto.
  - intros H. apply (subset _ _ table_all). destruct H as [[-> ->]|[c [I ->]]]; [left; reflexivity|right].
    apply in_map_iff. exists (n, c). auto.
Qed.
Lemma css_bytes : forallb (fun x => let '(r, g, b) := snd x in (0 <=? r) && (r <=? 255) && (0 <=? g) && (g <=? 255) && (0 <=? b) && (b <=? 255)) css_colors = true.
Proof. vm_compute. reflexivity. Qed.
Lemma css_not_transparent : forallb (fun x => negb (String.eqb (fst x) "Transparent")) css_colors = true.
Proof. vm_compute. reflexivity. Qed.
Lemma css_colour o n r g b sp : In (n, (r, g, b)) css_colors ->
  exists v c, In (n, v) hexcode_colors /\ @predefined_color f32 (F32 o) v sp = Ok c /\ has_channels c o 255 r g b sp.
Proof.
  intros I. assert (T : In (n, opaque (r, g, b)) hexcode_colors) by (apply css_table; right; exists (r, g, b); auto).
  destruct (predefined_channels o n (opaque (r, g, b)) sp T) as [a [r' [g' [b' [c [Hr [Hg [Hb [Ev [Ea [Ec Hc]]]]]]]]]]].
  pose proof css_bytes as B. rewrite forallb_forall in B. specialize (B _ I). cbn in B. rewrite !andb_true_iff, !Z.leb_le in B.
  pose proof css_not_transparent as Q. rewrite forallb_forall in Q. specialize (Q _ I). cbn [fst] in Q.
  destruct (string_dec n "Transparent") as [E|E]; [subst n; discriminate Q|]. subst a. unfold argb, opaque in Ev.
  assert (r' = r /\ g' = g /\ b' = b) as [-> [-> ->]] by lia.
  exists (opaque (r, g, b)), c. auto.
Qed.
Lemma css_transparent o sp : exists v c, In ("Transparent"%string, v) hexcode_colors /\ @predefined_color f32 (F32 o) v sp = Ok c /\ has_channels c o 0 255 255 255 sp.
Proof.
  assert (T : In ("Transparent"%string, 16777215) hexcode_colors) by (apply css_table; auto).
  destruct (predefined_channels o _ _ sp T) as [a [r' [g' [b' [c [Hr [Hg [Hb [Ev [Ea [Ec Hc]]]]]]]]]]].
  cbn in Ea. subst a. unfold argb in Ev. assert (r' = 255 /\ g' = 255 /\ b' = 255) as [-> [-> ->]] by lia. exists 16777215, c. auto.
Qed.
