(** Sessions for the examples beside the theorems on the records of runs, and
    where the code deviates. *)
From Coq Require Import Bool Arith Lia ZifyBool.
From Verif Require Import Model.Base Model.History Model.World Model.Run Model.Scheduler.
From Verif Require Import Spec.SchedulerSpec Proofs.SchedulerExamples Proofs.TerminationExamples Proofs.ShutdownExamples.
From Verif Require Import Proofs.OutcomeExamples.
Open Scope Z_scope.

(** One task of each execution, twice; the second asynchronous run is
    terminated. *)
Definition ex_kinds : world :=
  ex_world 2 [ex_task (ex_cfg 1 XMain 0); ex_task (ex_cfg 2 XAsync 0); ex_task (ex_cfg 3 XThread 0); ex_task (ex_cfg 4 XProcess 0)].
Definition ex_kinds_env (k : nat) : list move :=
  if Nat.ltb k 45 then []
  else if Nat.ltb k 150 then [MEnter 1 good_script; MLeave 1 (ex_ends (Some ValueError)); MThread 2 (ex_ends (Some TaskInaction)); MProcess 3 good_script]
  else [MTerminate 2; MThread 6 good_script; MProcess 7 (ex_ends (Some ValueError))].
Definition ex_records (w : world) : list (Z * action * option Z) := map (fun x => (r_task x, r_action x, r_run_id x)) (w_log w).

Lemma ends_proper e : ~ leaves_scheduler e -> proper (ex_ends e).
Proof. intros H. split; [reflexivity|]. split; [repeat split; discriminate|exact H]. Qed.
Lemma good_proper : proper good_script.
Proof. apply (ends_proper None). intros [H|H]; discriminate H. Qed.
Lemma code_proper f : (forall k m, In m (f k) -> proper_move m) -> proper_session (ex_code good_script f).
Proof.
  intros H. constructor; try reflexivity; try (intros; reflexivity).
  - intros k. apply good_proper.
  - exact H.
  - intros k. now exists (Z.of_nat k).
  - intros j k i Hj Hk. cbn in Hj, Hk. injection Hj as <-. injection Hk as Hk. now apply Nat2Z.inj.
Qed.
Lemma kinds_proper : proper_session (ex_code good_script ex_kinds_env).
Proof.
  assert (F1 : proper (ex_ends (Some ValueError))) by (apply ends_proper; intros [H|H]; discriminate H).
  assert (F2 : proper (ex_ends (Some TaskInaction))) by (apply ends_proper; intros [H|H]; discriminate H).
  apply code_proper. intros k m. unfold ex_kinds_env. pose proof good_proper.
  destruct (Nat.ltb k 45); [intros []|]. destruct (Nat.ltb k 150); intros Hin; cbn in Hin; repeat (destruct Hin as [<- |Hin]; [first [assumption|exact I]|]); destruct Hin.
Qed.
Lemma world_new n ts i : (forall t, In t ts -> t_stack t = []) -> new_id i (ex_world n ts).
Proof.
  intros H. split; [intros r []|]. intros m u (ts0 & t & r & O & Ht & Hr & _). destruct O as [-> |[]]. rewrite (H t Ht) in Hr. destruct Hr.
Qed.

(** A child process dies by itself. *)
Definition ex_killed (k : nat) : list move := [MKilled 0].
Definition ex_child : world := ex_world 1 [ex_task (ex_cfg 1 XProcess 0)].
Lemma killed_lost : exists orc cf fuel w w' i, (forall k, o_write orc k = true) /\ (forall k, proper (o_script orc k)) /\ w_log w = [] /\
  serve orc cf fuel w = (w', Returns tt) /\ w_log w' = [Rec 1 ARun (w_clock w) (Some i)] /\ w_queue w' = [] /\ (forall u, ~ live_in w' u).
Proof.
  eexists (ex_code good_script ex_killed), ex_config, 60%nat, ex_child, _, 14. split; [reflexivity|]. split; [intros k; apply good_proper|]. split; [reflexivity|].
  split; [vm_compute; reflexivity|]. split; [reflexivity|]. split; [reflexivity|].
  intros u (r & Hr & _ & L); cbn in Hr; destruct Hr as [<- | []]; discriminate L.
Qed.
(** A run in a child process is terminated although it has just ended. *)
Definition ex_late_term (k : nat) : list move := if Nat.eqb k 25 then [MTerminate 1; MProcess 0 good_script] else [].
Lemma late_term_proper : proper_session (ex_code good_script ex_late_term).
Proof.
  apply code_proper. intros k m. unfold ex_late_term. pose proof good_proper. destruct (Nat.eqb k 25); intros Hin; cbn in Hin; [|destruct Hin].
  destruct Hin as [<- |[<- |[]]]; [exact I|assumption].
Qed.
Lemma two_outcomes : exists orc cf fuel w w' i, proper_session orc /\ (forall k, o_hook orc k = None) /\ w_log w = [] /\
  serve orc cf fuel w = (w', Returns tt) /\
  w_log w' = [Rec 1 ARun (w_clock w) (Some i); Rec 1 ASuccess (w_clock w) (Some i); Rec 1 ATerminate (w_clock w) (Some i)].
Proof.
  eexists (ex_code good_script ex_late_term), ex_config, 60%nat, ex_child, _, 14. split; [apply late_term_proper|]. split; [reflexivity|]. split; [reflexivity|].
  split; [vm_compute; reflexivity|reflexivity].
Qed.
