(** * Properties C134-C135: programs that use the library *)
From Coq Require Import ZArith QArith Reals List Bool.
From Flocq Require Import Core IEEE754.BinarySingleNaN.
From Verif Require Import Arith Outcome ColorModel GammaModel SpaceModel Heap Converter F32 Spec Spec32 Spec_Conv Client Client_Proofs.
Import ListNotations.

(** C134 *)
Theorem C134_safe : forall o G l G' ms st, accepts G l G' ms -> good_state o G st -> exists st', run o l st = Ok st' /\ good_state o G' st'.
Proof. exact program_safe. Qed.
Print Assumptions C134_safe.
Theorem C134_from_scratch : forall o l G' ms, accepts (Context [] []) l G' ms -> exists st', run o l (Heap [] [], []) = Ok st' /\ good_state o G' st'.
Proof. exact program_safe_empty. Qed.
Print Assumptions C134_from_scratch.
Theorem C134_types : forall o l G' ms st, accepts (Context [] []) l G' ms -> run o l (Heap [] [], []) = Ok st ->
  forall x X s, is_var G' x X s -> exists p c, var (snd st) x = Some p /\ at_addr (fst st) p c /\ colour_of_type X c /\ rgb_space c = s.
Proof. exact program_types. Qed.
Print Assumptions C134_types.
(** Example: a program of twelve calls (NewSpace, NewColor, Convert, Mix, AdjustNew, BlendMode, Average, AdaptTo, Combination, ...) *)
Example C134_example : forall o, accepts (Context [] []) (sample o) sample_context [0%nat; 1%nat; 1%nat].
Proof. exact sample_accepted. Qed.
Example C134_example_length : forall o, length (sample o) = 12%nat.
Proof. reflexivity. Qed.

(** C135 *)
Theorem C135_frame : forall o G l G' ms st st', accepts G l G' ms -> good_state o G st -> run o l st = Ok st' -> only_changed ms st st'.
Proof. exact program_frame. Qed.
Print Assumptions C135_frame.
Theorem C135_pure : forall o G l G' st st', accepts G l G' [] -> good_state o G st -> run o l st = Ok st' ->
  (exists n, snd st' = snd st ++ n) /\ forall i c, at_addr (fst st) i c -> at_addr (fst st') i c.
Proof. exact program_pure. Qed.
Print Assumptions C135_pure.
Theorem C135_well_formed : forall o G l G' ms st st', accepts G l G' ms -> good_state o G st -> run o l st = Ok st' ->
  forall i X c, at_addr (fst st) i c -> @wf_color f32 (F32 o) X c -> exists c', at_addr (fst st') i c' /\ @wf_color f32 (F32 o) X c'.
Proof. exact program_reachable. Qed.
Print Assumptions C135_well_formed.
(** Example: [C134_example]; the empty state is good, and so is every state it leads to ([C134_safe]). *)
Example C135_example : forall o, good_state o (Context [] []) (Heap [] [], []).
Proof. exact empty_good. Qed.
