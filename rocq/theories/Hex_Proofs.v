(** * Proofs about hex codes *)
From Coq Require Import ZArith QArith Reals Lra Lia List Bool Ascii String.
From Flocq Require Import Core IEEE754.BinarySingleNaN.
From Verif Require Import Arith Outcome ColorModel HexModel.
From Verif Require Import Spec Spec32 F32 F32Facts RArith Laws Core_Proofs Core2_Proofs.
Import ListNotations.
Local Open Scope Z_scope.

Lemma hex_digit_complete c v : digit_value c v -> hex_digit c = Some (Z.of_nat v).
Proof.
  intros [L [H|H]]; do 16 (destruct v as [|v]; [injection H as <-; reflexivity|]); lia.
Qed.

Lemma hex_digit_sound c z : hex_digit c = Some z -> exists v, digit_value c v /\ z = Z.of_nat v.
Proof.
  unfold digit_value.
  destruct c as [[] [] [] [] [] [] [] []]; intros H; try discriminate; injection H as <-;
  match goal with |- exists v, _ /\ ?z = _ => exists (Z.to_nat z) end;
  (split; [split; [vm_compute; lia|]|reflexivity]); (left; reflexivity) || (right; reflexivity).
Qed.

Lemma allowed_iff c : allowed_char c = true <-> (c = "#"%char \/ exists v, digit_value c v).
Proof.
  unfold allowed_char, is_hash. rewrite orb_true_iff, Ascii.eqb_eq. split.
  - intros [H|H]; auto. right. destruct (hex_digit c) as [z|] eqn:E; [|discriminate].
    apply hex_digit_sound in E. destruct E as [v [D _]]. eauto.
  - intros [H|[v H]]; auto. right. rewrite (hex_digit_complete _ _ H). reflexivity.
Qed.

Lemma digit_not_hash c v : digit_value c v -> is_hash c = false.
Proof.
  intros [L [H|H]]; do 16 (destruct v as [|v]; [injection H as <-; reflexivity|]); lia.
Qed.

Lemma digit_allowed c v : digit_value c v -> allowed_char c = true.
Proof. intros H. apply allowed_iff. eauto. Qed.

Definition byte (v1 v2 : nat) : Z := 16 * Z.of_nat v1 + Z.of_nat v2.

Lemma byte_range c1 v1 c2 v2 : digit_value c1 v1 -> digit_value c2 v2 -> 0 <= byte v1 v2 <= 255.
Proof. intros [A _] [B _]. unfold byte. lia. Qed.

(** Prefix allowed before the digits. *)
Definition hash_prefix (pre : list ascii) : Prop := pre = [] \/ pre = ["#"%char].

Section Hex.
Context {F : Type} {AF : Arith F}.

Lemma hex6_fill pre c1 c2 c3 c4 c5 c6 v1 v2 v3 v4 v5 v6 sp : hash_prefix pre ->
  digit_value c1 v1 -> digit_value c2 v2 -> digit_value c3 v3 ->
  digit_value c4 v4 -> digit_value c5 v5 -> digit_value c6 v6 ->
  rgb_truecolor_hex (F := F) (pre ++ [c1; c2; c3; c4; c5; c6]) sp =
  truecolor_fill 255 (byte v1 v2) (byte v3 v4) (byte v5 v6) sp.
Proof.
  intros P D1 D2 D3 D4 D5 D6. unfold rgb_truecolor_hex.
  assert (R : regex_ok (pre ++ [c1; c2; c3; c4; c5; c6]) = true).
  { destruct P as [->| ->]; cbn [app regex_ok forallb];
      rewrite (digit_allowed _ _ D1), (digit_allowed _ _ D2), (digit_allowed _ _ D3),
              (digit_allowed _ _ D4), (digit_allowed _ _ D5), (digit_allowed _ _ D6); reflexivity. }
  rewrite R. cbn [negb].
  assert (E : match pre ++ [c1; c2; c3; c4; c5; c6] with [] => pre ++ [c1; c2; c3; c4; c5; c6]
              | c :: t => if is_hash c then t else pre ++ [c1; c2; c3; c4; c5; c6] end = [c1; c2; c3; c4; c5; c6]).
  { destruct P as [->| ->]; cbn [app].
    - rewrite (digit_not_hash _ _ D1). reflexivity.
    - reflexivity. }
  rewrite E. cbn [List.length Nat.eqb scan_many scan_hex2].
  rewrite (hex_digit_complete _ _ D1), (hex_digit_complete _ _ D2). cbn [scan_hex2].
  rewrite (hex_digit_complete _ _ D3), (hex_digit_complete _ _ D4). cbn [scan_hex2].
  rewrite (hex_digit_complete _ _ D5), (hex_digit_complete _ _ D6).
  reflexivity.
Qed.

Lemma hex8_fill pre c1 c2 c3 c4 c5 c6 c7 c8 v1 v2 v3 v4 v5 v6 v7 v8 sp : hash_prefix pre ->
  digit_value c1 v1 -> digit_value c2 v2 -> digit_value c3 v3 -> digit_value c4 v4 ->
  digit_value c5 v5 -> digit_value c6 v6 -> digit_value c7 v7 -> digit_value c8 v8 ->
  rgb_truecolor_hex (F := F) (pre ++ [c1; c2; c3; c4; c5; c6; c7; c8]) sp =
  truecolor_fill (byte v1 v2) (byte v3 v4) (byte v5 v6) (byte v7 v8) sp.
Proof.
  intros P D1 D2 D3 D4 D5 D6 D7 D8. unfold rgb_truecolor_hex.
  assert (R : regex_ok (pre ++ [c1; c2; c3; c4; c5; c6; c7; c8]) = true).
  { destruct P as [->| ->]; cbn [app regex_ok forallb];
      rewrite (digit_allowed _ _ D1), (digit_allowed _ _ D2), (digit_allowed _ _ D3), (digit_allowed _ _ D4),
              (digit_allowed _ _ D5), (digit_allowed _ _ D6), (digit_allowed _ _ D7), (digit_allowed _ _ D8); reflexivity. }
  rewrite R. cbn [negb].
  assert (E : match pre ++ [c1; c2; c3; c4; c5; c6; c7; c8] with [] => pre ++ [c1; c2; c3; c4; c5; c6; c7; c8]
              | c :: t => if is_hash c then t else pre ++ [c1; c2; c3; c4; c5; c6; c7; c8] end = [c1; c2; c3; c4; c5; c6; c7; c8]).
  { destruct P as [->| ->]; cbn [app].
    - rewrite (digit_not_hash _ _ D1). reflexivity.
    - reflexivity. }
  rewrite E. cbn [List.length Nat.eqb scan_many scan_hex2].
  rewrite (hex_digit_complete _ _ D1), (hex_digit_complete _ _ D2). cbn [scan_hex2].
  rewrite (hex_digit_complete _ _ D3), (hex_digit_complete _ _ D4). cbn [scan_hex2].
  rewrite (hex_digit_complete _ _ D5), (hex_digit_complete _ _ D6). cbn [scan_hex2].
  rewrite (hex_digit_complete _ _ D7), (hex_digit_complete _ _ D8).
  reflexivity.
Qed.

(** Rejections. *)
Lemma hex_bad_char s sp c : In c s -> c <> "#"%char -> (forall v, ~ digit_value c v) ->
  rgb_truecolor_hex (F := F) s sp = Throw (by_value invalid_argument).
Proof.
  intros I N D. unfold rgb_truecolor_hex.
  replace (regex_ok s) with false; [reflexivity|].
  symmetry. unfold regex_ok. destruct s as [|x s]; auto.
  apply not_true_is_false. intros H. rewrite forallb_forall in H. apply H in I.
  apply allowed_iff in I. destruct I as [I|[v I]]; [auto|]. apply (D v I).
Qed.

Definition stripped (s : list ascii) : list ascii :=
  match s with c :: t => if is_hash c then t else s | [] => s end.

Lemma hex_bad_length pre s sp : hash_prefix pre -> (pre = [] -> match s with c :: _ => c <> "#"%char | [] => True end) ->
  List.length s <> 6%nat -> List.length s <> 8%nat ->
  rgb_truecolor_hex (F := F) (pre ++ s) sp = Throw (by_value invalid_argument).
Proof.
  intros P H L6 L8. unfold rgb_truecolor_hex.
  destruct (regex_ok (pre ++ s)); [|reflexivity]. cbn [negb].
  assert (E : match pre ++ s with [] => pre ++ s | c :: t => if is_hash c then t else pre ++ s end = s).
  { destruct P as [->| ->]; cbn [app].
    - specialize (H eq_refl). destruct s as [|c t]; auto.
      unfold is_hash. destruct (Ascii.eqb_spec c "#"); congruence.
    - reflexivity. }
  rewrite E. apply Nat.eqb_neq in L6. apply Nat.eqb_neq in L8. rewrite L6, L8. reflexivity.
Qed.

Lemma scan_many_full n s : (forall c, In c s -> exists v, digit_value c v) -> List.length s = (2 * n)%nat ->
  List.length (scan_many n s) = n.
Proof.
  revert s. induction n as [|n IH]; intros s D L; auto.
  destruct s as [|a [|b s]]; try (cbn in L; lia).
  cbn [scan_many scan_hex2].
  destruct (D a) as [v1 D1]; [simpl; auto|]. destruct (D b) as [v2 D2]; [simpl; auto|].
  rewrite (hex_digit_complete _ _ D1), (hex_digit_complete _ _ D2). cbn [List.length]. f_equal.
  apply IH.
  - intros c H. apply D. simpl; auto.
  - cbn in L. lia.
Qed.

Lemma fill_ok {AL : ArithLaws F} a r g b sp : exists c, truecolor_fill (F := F) a r g b sp = Ok c.
Proof. destruct (truecolor_fill_made a r g b sp) as [c [E _]]. eauto. Qed.

(** Without a '#' in a later position nothing is undefined. *)
Lemma hex_defined {AL : ArithLaws F} pre s sp : hash_prefix pre -> ~ In "#"%char s ->
  (exists c, rgb_truecolor_hex (F := F) (pre ++ s) sp = Ok c) \/
  rgb_truecolor_hex (F := F) (pre ++ s) sp = Throw (by_value invalid_argument).
Proof.
  intros P N. unfold rgb_truecolor_hex.
  destruct (regex_ok (pre ++ s)) eqn:R; [|auto]. cbn [negb].
  assert (E : match pre ++ s with [] => pre ++ s | c :: t => if is_hash c then t else pre ++ s end = s).
  { destruct P as [->| ->]; cbn [app].
    - destruct s as [|c t]; auto. unfold is_hash. destruct (Ascii.eqb_spec c "#"); auto.
      exfalso. apply N. subst. simpl. auto.
    - reflexivity. }
  rewrite E.
  assert (D : forall c, In c s -> exists v, digit_value c v).
  { intros c I.
    assert (A : allowed_char c = true).
    { assert (J : In c (pre ++ s)) by (apply in_or_app; auto).
      unfold regex_ok in R. destruct (pre ++ s) as [|x l]; [destruct J|].
      rewrite forallb_forall in R. apply R, J. }
    apply allowed_iff in A. destruct A as [A|A]; auto. subst. contradiction. }
  destruct (Nat.eqb_spec (List.length s) 6) as [L|L].
  - pose proof (scan_many_full 3 s D L) as S.
    destruct (scan_many 3 s) as [|r [|g [|b [|]]]]; try discriminate. left. apply fill_ok.
  - destruct (Nat.eqb_spec (List.length s) 8) as [L8|L8]; [|auto].
    pose proof (scan_many_full 4 s D L8) as S.
    destruct (scan_many 4 s) as [|a [|r [|g [|b [|]]]]]; try discriminate. left. apply fill_ok.
Qed.
End Hex.

(** ** Decoded channels in binary32 *)

Definition byte_check (n : Z) : bool :=
  let x := normalize n 0 false in
  let m := clamp32 (Bdiv mode_NE x (lit32 (inject_Z 255))) (lit32 (inject_Z 1)) (lit32 (inject_Z 0)) in
  Beqb (Bmult mode_NE m (lit32 (inject_Z 255))) x && is_finite (Bmult mode_NE m (lit32 (inject_Z 255))).

Lemma byte_check_all : forallb byte_check (map Z.of_nat (seq 0 256)) = true.
Proof. vm_compute. reflexivity. Qed.

Lemma byte_check_ok n : 0 <= n <= 255 -> byte_check n = true.
Proof.
  intros H. pose proof byte_check_all as A. rewrite forallb_forall in A. apply A.
  apply in_map_iff. exists (Z.to_nat n). split; [lia|]. apply in_seq. lia.
Qed.

(** An rgb_truecolor with exactly these channel values. *)
Definition has_channels (c : color f32) (o : oracle) (a r g b : Z) (sp : option nat) : Prop :=
  cls c = RGB_TRUE /\ ty c = RGB_TRUE /\ rgb_space c = sp /\ List.length (comps c) = 3%nat /\
  comp_sat c 0 (fun x => is_value x (IZR r)) /\ comp_sat c 1 (fun x => is_value x (IZR g)) /\
  comp_sat c 2 (fun x => is_value x (IZR b)) /\ is_value (@alpha f32 (F32 o) c) (IZR a).

Lemma fill_value o n : 0 <= n <= 255 ->
  is_value (@clamp f32 (F32 o) (@fofZ f32 (F32 o) n) (@fz f32 (F32 o) 255) (@fz f32 (F32 o) 0)) (IZR n).
Proof.
  intros H. cbn [fofZ F32]. rewrite clamp_F32, !fz32.
  destruct (ofZ32 n) as [Fn Vn]; [sm|].
  destruct (lit32_int 255) as [V2 F2]; [sm|]. destruct (lit32_int 0) as [V0 F0]; [sm|].
  rewrite clamp32_id; auto.
  - split; auto.
  - rewrite Vn, V2, V0. split; apply IZR_le; lia.
Qed.

Lemma fill_channels o a r g b sp : 0 <= a <= 255 -> 0 <= r <= 255 -> 0 <= g <= 255 -> 0 <= b <= 255 ->
  exists c, @truecolor_fill f32 (F32 o) a r g b sp = Ok c /\ has_channels c o a r g b sp.
Proof.
  intros Ha Hr Hg Hb.
  eexists. split; [reflexivity|].
  unfold has_channels. split; [reflexivity|]. split; [reflexivity|]. split; [reflexivity|]. split; [reflexivity|].
  split; [eexists; split; [reflexivity|apply fill_value, Hr]|].
  split; [eexists; split; [reflexivity|apply fill_value, Hg]|].
  split; [eexists; split; [reflexivity|apply fill_value, Hb]|].
  pose proof (byte_check_ok a Ha) as B. unfold byte_check in B. cbv zeta in B. apply andb_prop in B. destruct B as [B1 B2].
  destruct (ofZ32 a) as [Fn Vn]; [sm|].
  rewrite Beqb_fin in B1 by assumption. rewrite Vn in B1.
  split.
  - exact B2.
  - match type of B1 with Req_bool ?x ?y = _ => destruct (Req_bool_spec x y) as [Q|Q]; [exact Q|discriminate] end.
Qed.

(** ** Integers *)
Lemma int_bytes h a r g b : 0 <= a <= 255 -> 0 <= r <= 255 -> 0 <= g <= 255 -> 0 <= b <= 255 ->
  (exists q, h = q * 4294967296 + (a * 16777216 + r * 65536 + g * 256 + b)) ->
  Z.land (Z.shiftr h 24) 255 = a /\ Z.land (Z.shiftr h 16) 255 = r /\
  Z.land (Z.shiftr h 8) 255 = g /\ Z.land h 255 = b.
Proof.
  intros Ha Hr Hg Hb [q ->].
  assert (L : forall z, Z.land z 255 = z mod 256) by (intros z; apply (Z.land_ones z 8); lia).
  rewrite !L, !Z.shiftr_div_pow2 by lia.
  change (2 ^ 24) with 16777216. change (2 ^ 16) with 65536. change (2 ^ 8) with 256.
  repeat split.
  - replace (q * 4294967296 + (a * 16777216 + r * 65536 + g * 256 + b))
      with ((q * 256 + a) * 16777216 + (r * 65536 + g * 256 + b)) by ring.
    rewrite Z.div_add_l by lia. rewrite Z.div_small by lia. rewrite Z.add_0_r.
    rewrite Z.add_comm, Z_mod_plus_full. apply Z.mod_small. lia.
  - replace (q * 4294967296 + (a * 16777216 + r * 65536 + g * 256 + b))
      with (((q * 256 + a) * 256 + r) * 65536 + (g * 256 + b)) by ring.
    rewrite Z.div_add_l by lia. rewrite Z.div_small by lia. rewrite Z.add_0_r.
    rewrite Z.add_comm, Z_mod_plus_full. apply Z.mod_small. lia.
  - replace (q * 4294967296 + (a * 16777216 + r * 65536 + g * 256 + b))
      with ((((q * 256 + a) * 256 + r) * 256 + g) * 256 + b) by ring.
    rewrite Z.div_add_l by lia. rewrite Z.div_small by lia. rewrite Z.add_0_r.
    rewrite Z.add_comm, Z_mod_plus_full. apply Z.mod_small. lia.
  - replace (q * 4294967296 + (a * 16777216 + r * 65536 + g * 256 + b))
      with ((((q * 256 + a) * 256 + r) * 256 + g) * 256 + b) by ring.
    rewrite Z.add_comm, Z_mod_plus_full. apply Z.mod_small. lia.
Qed.

(** The 32-bit pattern of an int. *)
Definition argb (a r g b : Z) : Z := a * 16777216 + r * 65536 + g * 256 + b.

Lemma int_fill {F} {AF : Arith F} h a r g b sp : 0 <= a <= 255 -> 0 <= r <= 255 -> 0 <= g <= 255 -> 0 <= b <= 255 ->
  h mod 4294967296 = argb a r g b -> @rgb_truecolor_int F AF h sp = truecolor_fill a r g b sp.
Proof.
  intros Ha Hr Hg Hb H. unfold rgb_truecolor_int.
  destruct (int_bytes h a r g b) as [E1 [E2 [E3 E4]]]; auto.
  - exists (h / 4294967296). unfold argb in H. pose proof (Z.div_mod h 4294967296). lia.
  - rewrite E1, E2, E3, E4. reflexivity.
Qed.

Lemma argb_complete h : exists a r g b, 0 <= a <= 255 /\ 0 <= r <= 255 /\ 0 <= g <= 255 /\ 0 <= b <= 255 /\
  h mod 4294967296 = argb a r g b.
Proof.
  set (m := h mod 4294967296).
  assert (M : 0 <= m < 4294967296) by (apply Z.mod_pos_bound; lia).
  exists (m / 16777216), ((m / 65536) mod 256), ((m / 256) mod 256), (m mod 256).
  pose proof (Z.mod_pos_bound (m / 65536) 256). pose proof (Z.mod_pos_bound (m / 256) 256). pose proof (Z.mod_pos_bound m 256).
  assert (0 <= m / 16777216 <= 255).
  { split; [apply Z.div_pos; lia|]. apply Z.lt_succ_r. apply Z.div_lt_upper_bound; lia. }
  repeat split; try lia. unfold argb.
  pose proof (Z.div_mod m 256). pose proof (Z.div_mod (m / 256) 256). pose proof (Z.div_mod (m / 65536) 256).
  rewrite !Z.div_div in * by lia.
  change (256 * 256) with 65536 in *. change (65536 * 256) with 16777216 in *. lia.
Qed.

Lemma to_int32_mod v : to_int32 v mod 4294967296 = v mod 4294967296.
Proof.
  unfold to_int32. pose proof (Z.mod_pos_bound v 4294967296).
  destruct (v mod 4294967296 <? 2147483648).
  - apply Z.mod_small. lia.
  - rewrite <- (Z.mod_add _ 1) by lia. rewrite Z.mod_small; lia.
Qed.

(** Each enumerator value has the bytes FF rr gg bb, except Transparent. *)
Lemma predefined_opaque : forallb (fun p => String.eqb (fst p) "Transparent" && (snd p =? 16777215) ||
  negb (String.eqb (fst p) "Transparent") && (4278190080 <=? snd p) && (snd p <=? 4294967295)) hexcode_colors = true.
Proof. vm_compute. reflexivity. Qed.

Lemma predefined_bytes n v : In (n, v) hexcode_colors -> n <> "Transparent"%string ->
  exists r g b, 0 <= r <= 255 /\ 0 <= g <= 255 /\ 0 <= b <= 255 /\ v = argb 255 r g b.
Proof.
  intros I N. pose proof predefined_opaque as P. rewrite forallb_forall in P. apply P in I. cbn [fst snd] in I.
  apply String.eqb_neq in N. rewrite N in I. cbn [andb orb negb] in I.
  destruct (argb_complete v) as [a [r [g [b [Ha [Hr [Hg [Hb E]]]]]]]].
  rewrite Z.mod_small in E by lia. exists r, g, b. repeat split; try lia. unfold argb in *. lia.
Qed.

Lemma predefined_transparent v : In ("Transparent"%string, v) hexcode_colors -> v = argb 0 255 255 255.
Proof.
  intros I. pose proof predefined_opaque as P. rewrite forallb_forall in P. apply P in I. cbn [fst snd] in I.
  change (("Transparent" =? "Transparent")%string) with true in I. cbn [andb orb negb] in I.
  rewrite orb_false_r in I. apply Z.eqb_eq in I. rewrite I. reflexivity.
Qed.
