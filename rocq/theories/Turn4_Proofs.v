(** * Complements *)
From Coq Require Import ZArith Reals Lra Lia List.
From Flocq Require Import IEEE754.BinarySingleNaN.
From Verif Require Import Arith Outcome ColorModel Heap Converter Combine RArith F32 Laws Spec Spec32 Spec_Matrix Spec_Conv Spec_Calc Spec_Round Spec_Formula Spec_Error Spec_Rank Spec_Turn
  Error8_Proofs RoundEx_Proofs Turn_Proofs Turn2_Proofs Turn3_Proofs.
Import ListNotations.
Local Open Scope R_scope.

Lemma turn_ext r g b : let s := largest r g b + smallest r g b in largest (s - g) (s - b) (s - r) + smallest (s - g) (s - b) (s - r) = s.
Proof. cbv zeta. unfold largest, smallest, Rmax, Rmin. repeat (destruct (Rle_dec _ _)); lra. Qed.
Lemma turn_two r g b : turn (turn (r, g, b)) = (b, r, g).
Proof. pose proof (turn_ext r g b) as E. cbv zeta in E. unfold turn. rewrite E. repeat f_equal; ring. Qed.
Lemma turns_three r g b : turns 3 (r, g, b) = let s := largest r g b + smallest r g b in (s - r, s - g, s - b).
Proof.
  change (turns 3 (r, g, b)) with (turn (turn (turn (r, g, b)))). unfold turn at 3. cbv zeta. rewrite turn_two. reflexivity.
Qed.
Lemma turns_six p : turns 6 p = p.
Proof.
  destruct p as [[r g] b]. change (turns 6 (r, g, b)) with (turn (turn (turn (turn (turn (turn (r, g, b))))))). rewrite !turn_two. reflexivity.
Qed.
Lemma turns_back p : turns 3 (turns 3 p) = p.
Proof. exact (turns_six p). Qed.

Lemma complement_deep (h : heap R) p c t : at_addr h p c -> wf_color RGB_DEEP c -> comps c = channels t -> ~ in_last_degree t -> ~ in_last_degree (turns 3 t) ->
  returns (create_complimentary (Some p)) h (fun d => wf_color RGB_DEEP d /\ comps d = channels (turns 3 t) /\ rgb_space d = rgb_space c).
Proof.
  destruct t as [[r g] b]. intros A W Ec N1 N2.
  destruct (scheme_deep 2 h p c r g b ltac:(left; reflexivity) A W Ec N1) as [qs [h' [E [L K]]]]. destruct qs as [|q [|? ?]]; try discriminate L.
  destruct (K 0%nat q eq_refl _ eq_refl N2) as [d [Ad [Wd [Cd Sd]]]]. exists q, d, h'. split; [|split; [exact Ad|]]; [|auto].
  unfold create_complimentary, bind. rewrite E. reflexivity.
Qed.
Lemma twice_deep (h : heap R) p c t : at_addr h p c -> wf_color RGB_DEEP c -> comps c = channels t -> ~ in_last_degree t -> ~ in_last_degree (turns 3 t) ->
  returns (bind (create_complimentary (Some p)) create_complimentary) h (fun d => wf_color RGB_DEEP d /\ comps d = comps c /\ rgb_space d = rgb_space c).
Proof.
  intros A W Ec N1 N2. destruct (complement_deep h p c t A W Ec N1 N2) as [q [d [h1 [E [Ad [Wd [Cd Sd]]]]]]].
  destruct (complement_deep h1 q d (turns 3 t) Ad Wd Cd N2) as [q' [d' [h' [E' [Ad' [Wd' [Cd' Sd']]]]]]]; [rewrite turns_back; exact N1|].
  exists q', d', h'. split; [unfold bind; rewrite E; exact E'|]. split; [exact Ad'|]. rewrite turns_back in Cd'. split; [exact Wd'|]. split; congruence.
Qed.

Lemma byte_turns_back t : is_bytes t -> byte_turns 3 (byte_turns 3 t) = t.
Proof.
  intros B. destruct (turns_bytes 3 t B) as [B1 E1]. destruct (turns_bytes 3 (byte_turns 3 t) B1) as [_ E2]. rewrite E1, turns_back in E2.
  destruct (byte_turns 3 (byte_turns 3 t)) as [[x y] z]. destruct t as [[r g] b]. cbn [reals] in E2. injection E2 as E3 E4 E5. apply eq_IZR in E3, E4, E5. congruence.
Qed.
Lemma complement_bytes : forall o (h : heap f32) p c t, at_addr h p c -> @wf_color f32 (F32 o) RGB_TRUE c -> is_bytes t -> holds_bytes t c -> ~ in_last_degree (reals t) -> ~ in_last_degree (reals (byte_turns 3 t)) ->
  returns (@create_complimentary f32 (F32 o) (Some p)) h (fun d => @wf_color f32 (F32 o) RGB_TRUE d /\ holds_bytes (byte_turns 3 t) d /\ rgb_space d = rgb_space c).
Proof.
  intros o h p c t A W B Ht N1 N2. destruct (scheme_bytes o 2 h p c t ltac:(left; reflexivity) A W B Ht N1) as [qs [h' [E [L K]]]]. destruct qs as [|q [|? ?]]; try discriminate L.
  destruct (K 0%nat q eq_refl _ eq_refl N2) as [d [Ad [Wd [Cd Sd]]]]. exists q, d, h'. split; [|split; [exact Ad|]]; [|auto].
  unfold create_complimentary, bind. rewrite E. reflexivity.
Qed.
Lemma twice_bytes : forall o (h : heap f32) p c t, at_addr h p c -> @wf_color f32 (F32 o) RGB_TRUE c -> is_bytes t -> holds_bytes t c -> ~ in_last_degree (reals t) -> ~ in_last_degree (reals (byte_turns 3 t)) ->
  returns (bind (@create_complimentary f32 (F32 o) (Some p)) (@create_complimentary f32 (F32 o))) h (fun d => @wf_color f32 (F32 o) RGB_TRUE d /\ holds_bytes t d /\ rgb_space d = rgb_space c).
Proof.
  intros o h p c t A W B Ht N1 N2. destruct (complement_bytes o h p c t A W B Ht N1 N2) as [q [d [h1 [E [Ad [Wd [Cd Sd]]]]]]].
  destruct (complement_bytes o h1 q d (byte_turns 3 t) Ad Wd (proj1 (turns_bytes 3 t B)) Cd N2) as [q' [d' [h' [E' [Ad' [Wd' [Cd' Sd']]]]]]]; [rewrite byte_turns_back; assumption|].
  exists q', d', h'. split; [unfold bind; rewrite E; exact E'|]. split; [exact Ad'|]. rewrite byte_turns_back in Cd' by exact B. split; [exact Wd'|]. split; [exact Cd'|congruence].
Qed.
Lemma deep_case : exists (h : heap R) c, at_addr h 0%nat c /\ wf_color RGB_DEEP c /\ comps c = channels (1 / 2, 1 / 4, 3 / 4) /\ ~ in_last_degree (1 / 2, 1 / 4, 3 / 4) /\
  turns 3 (1 / 2, 1 / 4, 3 / 4) = (1 / 2, 3 / 4, 1 / 4) /\ ~ in_last_degree (1 / 2, 3 / 4, 1 / 4).
Proof.
  destruct rgb_example as [h [c [A [W [C N]]]]]. exists h, c. split; [exact A|]. split; [exact W|]. split; [exact C|]. split; [exact N|]. split.
  - rewrite turns_three. cbv zeta. assert (E : largest (1 / 2) (1 / 4) (3 / 4) + smallest (1 / 2) (1 / 4) (3 / 4) = 1).
    { unfold largest, smallest, Rmax, Rmin. repeat (destruct (Rle_dec _ _)); lra. }
    rewrite E. f_equal; [f_equal|]; lra.
  - cbn. unfold near_360. lra.
Qed.
Lemma byte_case : forall o, exists (h : heap f32) c, at_addr h 0%nat c /\ @wf_color f32 (F32 o) RGB_TRUE c /\ is_bytes (200, 100, 40)%Z /\ holds_bytes (200, 100, 40)%Z c /\
  ~ in_last_degree (reals (200, 100, 40)%Z) /\ byte_turns 3 (200, 100, 40)%Z = (40, 140, 200)%Z /\ ~ in_last_degree (reals (40, 140, 200)%Z).
Proof.
  intros o. destruct (bytes_exist o 200 100 40 255) as [h [c [A [W [B _]]]]]; try (unfold is_byte; lia). exists h, c. split; [exact A|]. split; [exact W|]. split; [repeat split; discriminate|].
  split; [exact B|]. split; [cbn; unfold near_360; lra|]. split; [reflexivity|]. cbn. unfold near_360. lra.
Qed.
