(** Ends of runs for the examples beside the theorems, and where the code
    deviates. *)
From Coq Require Import Bool Arith Lia ZifyBool.
From Verif Require Import Model.Base Model.History Model.World Model.Run Model.Scheduler.
From Verif Require Import Spec.SchedulerSpec Proofs.SchedulerExamples Proofs.TerminationExamples Proofs.ShutdownExamples.
Open Scope Z_scope.

(** The code of the runs is [s] *)
Definition ex_code (s : script) (f : nat -> list move) : oracle :=
  Oracle f (fun _ _ _ => Ok true) (fun _ => Ok false) (fun _ => Ok false) (fun _ => true)
    (fun _ => None) (fun _ => None) (fun _ => true) (fun k => Ok (Z.of_nat k)) (fun _ => s) (fun _ => None).
Definition ex_ends (e : option exn) : script := Script None e 7 None None None None None.
Definition ex_main : world := ex_world 1 [ex_task (ex_cfg 1 XMain 0)].
Definition no_setup : script := Script (Some ValueError) None 7 None None None None None.
Definition ex_no_setup (k : nat) : list move := [MEnter 0 no_setup].
Definition ex_run_rec (i : Z) (a : action) : record := Rec 1 a 1000 (Some i).

(** The setup of an asynchronous run fails (say, a parameter cannot be
    obtained): the run is over and its end is not recorded. *)
Lemma async_setup_lost : exists orc cf fuel w w' i, (forall k, o_write orc k = true) /\ w_log w = [] /\
  serve orc cf fuel w = (w', Returns tt) /\ w_log w' = [Rec 1 ARun (w_clock w) (Some i)] /\
  (forall u, ~ live_in w' u) /\ status_of 1 w' = Some ARun.
Proof.
  eexists (ex_code good_script ex_no_setup), ex_config, 20%nat, ex_one, _, 14. split; [reflexivity|]. split; [reflexivity|].
  split; [vm_compute; reflexivity|]. split; [reflexivity|]. split; [|reflexivity].
  intros u (r & Hr & _ & L); cbn in Hr; destruct Hr as [<- | []]; discriminate L.
Qed.
(** process_finish fails after the end of a run in the main loop: two starts
    and two ends are recorded for the one run. *)
Lemma finish_twice : exists orc cf fuel w i, (forall k, o_write orc k = true) /\ w_log w = [] /\
  w_log (fst (start_async orc cf fuel 1 w)) =
    [ex_run_rec i ARun; ex_run_rec i ASuccess; ex_run_rec i ARun; ex_run_rec i AFail].
Proof.
  exists (ex_code failing_script ex_quiet), ex_config, 20%nat, ex_main, 1. split; [reflexivity|]. split; [reflexivity|]. vm_compute. reflexivity.
Qed.
(** A run asks for a restart: its end is recorded without its id. *)
Lemma restart_no_id : exists orc cf fuel w i, (forall k, o_write orc k = true) /\ (forall k, tidy (o_script orc k)) /\ w_log w = [] /\
  w_log (fst (start_async orc cf fuel 1 w)) = [Rec 1 ARun 1000 (Some i); Rec 1 ASuccess 1000 None].
Proof.
  exists (ex_code (ex_ends (Some SchedulerRestart)) ex_quiet), ex_config, 20%nat, ex_main, 1.
  split; [reflexivity|]. split; [intros k; repeat split; discriminate|]. split; [reflexivity|]. vm_compute. reflexivity.
Qed.
(** What happens in the main loop's run of task 1 when another, asynchronous,
    run ends meanwhile *)
Definition ex_other : world := ex_after 500 [ex_task (ex_cfg 1 XMain 0); ex_task (ex_many 2 XAsync None false)].
Definition ex_other_ends (k : nat) : list move := [MLeave 1 good_script].
Definition ex_no_id (i : Z) (r : run) : bool := match rn_id r with Some j => negb (j =? i) | None => true end.
Definition ex_unused (i : Z) (w : world) : bool := forallb (ex_no_id i) (tracked w) && forallb (fun p => ex_no_id i (snd p)) (w_orphans w).
Lemma ex_unused_ok i w : ex_unused i w = true -> unused i w.
Proof.
  intros H. apply andb_true_iff in H as [H1 H2]. rewrite forallb_forall in H1, H2.
  assert (K : forall r, ex_no_id i r = true -> rn_id r <> Some i) by (intros r; unfold ex_no_id; destruct (rn_id r); [|discriminate]; intros H E; injection E as ->; rewrite Z.eqb_refl in H; discriminate H).
  split; [intros r Hr _; now apply K, H1|]. intros n r Hr. now apply K, (H2 (n, r)).
Qed.
