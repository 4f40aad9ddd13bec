(** Log failures for the examples beside the theorems, and where the code
    deviates. *)
From Coq Require Import Bool Arith Lia ZifyBool.
From Verif Require Import Model.Base Model.History Model.World Model.Run Model.Scheduler.
From Verif Require Import Spec.SchedulerSpec Proofs.SchedulerExamples Proofs.TerminationExamples Proofs.ShutdownExamples.
Open Scope Z_scope.

(** Records can be written when [wr] says so *)
Definition ex_writes (wr : nat -> bool) (f : nat -> list move) : oracle :=
  Oracle f (fun _ _ _ => Ok true) (fun _ => Ok false) (fun _ => Ok false) wr
    (fun _ => None) (fun _ => None) (fun _ => true) (fun k => Ok (Z.of_nat k)) (fun _ => good_script) (fun _ => None).
Definition ex_silent (instant : bool) : config := Config XAsync false 2 1800 instant false true false.
Definition ex_runs (k : nat) : list move := [MEnter 0 good_script; MLeave 0 good_script].
Definition ex_until (k0 k : nat) : bool := Nat.leb k k0.

(** The record of a termination cannot be written: the error leaves the
    scheduler although it is to be silenced. *)
Lemma silenced_raises : exists orc cf fuel w, cf_silence_logging cf = true /\
  (forall k n w, o_cond orc k n w <> Err TaskLoggingError) /\ (forall k, o_end orc k <> Err TaskLoggingError) /\
  (forall k, o_shut orc k <> Err TaskLoggingError) /\ (forall k, o_hook orc k <> Some TaskLoggingError) /\
  snd (serve orc cf fuel w) = Raises TaskLoggingError.
Proof.
  exists (ex_writes (fun _ => false) ex_quiet), (ex_silent true), 20%nat, ex_one. repeat split; try discriminate; vm_compute; reflexivity.
Qed.
(** The record of the success of an asynchronous run cannot be written: no one
    is told although nothing is to be silenced. *)
Lemma lost_async : exists orc cf fuel w w' i, cf_silence_logging cf = false /\ w_log w = [] /\
  serve orc cf fuel w = (w', Returns tt) /\ w_log w' = [Rec 1 ARun (w_clock w) i] /\ status_of 1 w' = Some AFail /\
  (forall u, ~ live_in w' u) /\ forall n u evs, happened w w' evs -> ~ In (EvTerminate n u) evs.
Proof.
  eexists (ex_writes (ex_until 15) ex_runs), ex_config, 20%nat, ex_one, _, (Some 14). split; [reflexivity|]. split; [reflexivity|].
  split; [vm_compute; reflexivity|]. split; [reflexivity|]. split; [reflexivity|].
  split; [intros u (r & Hr & _ & L); cbn in Hr; destruct Hr as [<- | []]; discriminate L|].
  intros n u evs H Hin. unfold happened in H. cbn in H. rewrite app_nil_r in H. rewrite in_rev in Hin. rewrite <- H in Hin.
  repeat (destruct Hin as [Hin|Hin]; [discriminate Hin|]). exact Hin.
Qed.
(** The start record of a task in a thread cannot be written *)
Definition ex_thread : world := ex_world 1 [ex_task (ex_cfg 1 XThread 0)].
(** The record of the success of a run in a thread cannot be written, the next
    record can: the run is recorded as failed, without its id, and no one is
    told. *)
Definition ex_threads (k : nat) : list move := [MThread 0 good_script].
Lemma thread_once : exists orc cf fuel w w' i, cf_silence_logging cf = false /\ w_log w = [] /\
  (forall k m, In m (o_env orc k) -> m = MThread 0 good_script) /\ (exists k, forall j, o_write orc j = false <-> j = k) /\
  serve orc cf fuel w = (w', Returns tt) /\
  w_log w' = [Rec 1 ARun (w_clock w) (Some i); Rec 1 AFail (w_clock w) None] /\ return_of 1 w' = Some (s_value good_script).
Proof.
  eexists (ex_writes (fun k => negb (Nat.eqb k 19)) ex_threads), ex_config, 20%nat, ex_thread, _, 14. split; [reflexivity|]. split; [reflexivity|].
  split; [intros k m [<- | []]; reflexivity|].
  split; [exists 19%nat; intros j; unfold ex_writes, o_write; rewrite negb_false_iff; apply Nat.eqb_eq|].
  split; [vm_compute; reflexivity|]. split; reflexivity.
Qed.
