(** C22, C23: how runs end and what is recorded. *)
From Verif Require Import Model.Base Model.History Model.World Model.Run Model.Scheduler.
From Verif Require Import Spec.SchedulerSpec Proofs.SchedulerExamples Proofs.TerminationExamples Proofs.ShutdownExamples.
From Verif Require Import Proofs.OutcomeProofs Proofs.OutcomeExamples Proofs.LedgerProofs Proofs.LedgerExamples.
Open Scope Z_scope.

(** * C23: the outcome is determined by how the code ends *)

(** Except where it leaves the scheduler, the one record is the classification
    of how the code ended, under the run's id; nothing propagates from a task
    with an execution; the value is stored on success only. *)
Theorem c23_classified : forall orc x n rid s w t, find_task n w = Some t -> o_write orc (w_tick w) = true -> tidy s ->
  ~ leaves_scheduler (s_exec s) -> x <> None ->
  exists w', run_body orc false x n rid s w = (w', Returns tt) /\ records n (classified (s_exec s)) rid w w' /\
    w_queue w' = w_queue w /\ w_orphans w' = w_orphans w /\ w_clock w' = w_clock w /\ tracked w' = tracked w /\
    w_returns w' = match s_exec s with None => (n, s_value s) :: w_returns w | Some _ => w_returns w end.
Proof. exact body_ends. Qed.
Print Assumptions c23_classified.

(** A failure propagates exactly when there is no execution. *)
Theorem c23_failure_propagates : forall orc x n rid s w t, find_task n w = Some t -> o_write orc (w_tick w) = true -> tidy s ->
  forall e, classified (Some e) = AFail -> s_exec s = Some e ->
  exists w', run_body orc false x n rid s w = (w', match x with None => Raises e | Some _ => Returns tt end) /\
    records n AFail rid w w' /\ undisturbed w w'.
Proof. exact body_fails. Qed.
Print Assumptions c23_failure_propagates.

(** A restart or the end of the scheduler always propagates, and is recorded as
    a success. *)
Theorem c23_leaving_propagates : forall orc x n rid s w t, find_task n w = Some t -> o_write orc (w_tick w) = true -> tidy s ->
  forall e, leaves_scheduler (Some e) -> s_exec s = Some e ->
  exists w', run_body orc false x n rid s w = (w', Raises e) /\ records n ASuccess None w w' /\ undisturbed w w'.
Proof. exact body_leaves. Qed.
Print Assumptions c23_leaving_propagates.

Example c23_met :
  let body := fun e x => run_body (ex_code good_script ex_quiet) false x 2 (Some 5) (ex_ends e) ex_ranked in
  let last := fun e => map r_action (w_log (fst (body e (Some XMain)))) in
  option_map t_name (find_task 2 ex_ranked) = Some 2 /\
  map (fun e => last e) [None; Some TaskInaction; Some TaskTermination; Some CancelledError; Some ValueError; Some SchedulerExit] =
    [[ASuccess]; [AInaction]; [ATerminate]; [ATerminate]; [AFail]; [ASuccess]] /\
  snd (body (Some ValueError) (Some XMain)) = Returns tt /\ snd (body (Some ValueError) None) = Raises ValueError /\
  snd (body (Some SchedulerExit) (Some XMain)) = Raises SchedulerExit /\
  w_returns (fst (body None (Some XMain))) = [(2, 7)] /\ w_returns (fst (body (Some ValueError) (Some XMain))) = [].
Proof. repeat split; vm_compute; reflexivity. Qed.

(** * C22: one start, one outcome *)

(** In the main loop: the start is recorded, then the outcome, both under the
    run's id; whatever is recorded in between is of other runs. *)
Theorem c22_main : forall orc cf n i fuel w t, find_task n w = Some t -> o_prep orc (w_tick w) = None ->
  o_run_id orc (S (w_tick w)) = Ok i ->
  (forall k, o_write orc k = true) -> (forall k, tidy (o_script orc k)) -> (forall k, ~ leaves_scheduler (s_exec (o_script orc k))) ->
  (forall k, s_setup (o_script orc k) = None) -> executes cf t XMain -> unused i w ->
  exists w' l k c, start_async orc cf fuel n w = (w', Returns tt) /\
    w_log w' = w_log w ++ Rec n ARun (w_clock w) (Some i) :: l ++ [Rec n (classified (s_exec (o_script orc k))) c (Some i)] /\
    Forall (fun r => r_run_id r <> Some i) l.
Proof. exact main_one. Qed.
Print Assumptions c22_main.

(** An asynchronous run of task 2 ends during the run of task 1. *)
Example c22_main_met :
  let orc := ex_code (ex_ends (Some ValueError)) ex_other_ends in
  let r := start_async orc ex_config 20 1 ex_other in
  option_map (fun t => tc_exec (t_cfg t)) (find_task 1 ex_other) = Some (Some XMain) /\
  o_run_id orc (S (w_tick ex_other)) = Ok 63 /\ unused 63 ex_other /\ (forall k, tidy (o_script orc k)) /\
  (forall k, ~ leaves_scheduler (s_exec (o_script orc k))) /\
  map (fun x => (r_task x, r_action x, r_run_id x)) (skipn (length (w_log ex_other)) (w_log (fst r))) =
    [(1, ARun, Some 63); (2, ASuccess, Some 25); (1, AFail, Some 63)].
Proof.
  split; [vm_compute; reflexivity|]. split; [vm_compute; reflexivity|]. split; [apply ex_unused_ok; vm_compute; reflexivity|].
  split; [intros k; repeat split; discriminate|]. split; [intros k [H|H]; discriminate H|]. vm_compute. reflexivity.
Qed.

(** Asynchronously: the start is recorded, *)
Theorem c22_async_start : forall orc cf n i fuel w t, find_task n w = Some t -> o_prep orc (w_tick w) = None ->
  o_run_id orc (S (w_tick w)) = Ok i ->
  (forall k, o_write orc k = true) -> executes cf t XAsync ->
  exists w', start_async orc cf fuel n w = (w', Returns tt) /\ w_log w' = w_log w ++ [Rec n ARun (w_clock w) (Some i)] /\
    In (Run (w_uid w) (Some i) (w_clock w) XAsync Pending false false) (tracked w').
Proof. exact async_starts. Qed.
Print Assumptions c22_async_start.

(** and when the code of the run ends, one outcome under its id. *)
Theorem c22_async_end : forall orc u s w t r, find_run u w = Some (t, r) -> rn_kind r = XAsync -> rn_phase r = Busy ->
  o_write orc (w_tick w) = true -> tidy s -> ~ leaves_scheduler (s_exec s) ->
  exists w', do_move orc (MLeave u s) w = (w', Returns tt) /\
    w_log w' = w_log w ++ [Rec (t_name t) (classified (s_exec s)) (w_clock w) (rn_id r)] /\ ~ live_in w' u.
Proof. exact async_ends. Qed.
Print Assumptions c22_async_end.

Example c22_async_met :
  let orc := ex_code good_script ex_quiet in
  option_map (fun t => tc_exec (t_cfg t)) (find_task 1 ex_one) = Some (Some XAsync) /\
  map (fun r => (rn_uid r, rn_id r)) (tracked (fst (start_async orc ex_config 20 1 ex_one))) = [(0%nat, Some 1)] /\
  option_map (fun p => (t_name (fst p), rn_kind (snd p), rn_phase (snd p), rn_id (snd p))) (find_run 1 ex_other) = Some (2, XAsync, Busy, Some 25) /\
  map (fun x => (r_task x, r_action x, r_run_id x)) (skipn (length (w_log ex_other)) (w_log (fst (do_move orc (MLeave 1 good_script) ex_other)))) =
    [(2, ASuccess, Some 25)].
Proof. repeat split; vm_compute; reflexivity. Qed.

(** Over a whole session, with any execution and however the session ends: each
    run that was started has its start recorded once and then its outcome once,
    unless it was terminated, which may be recorded as well or again.  All is
    under the run's own id. *)
Theorem c22_session : forall orc cf, proper_session orc -> forall fuel w,
  distinct_names w -> no_runs w -> w_queue w = [] -> w_orphans w = [] ->
  (forall k i, o_run_id orc k = Ok i -> new_id i w) -> (forall k, o_hook orc k = None) -> snd (serve orc cf fuel w) <> OutOfFuel ->
  let w' := fst (serve orc cf fuel w) in
  forall n u, In (EvStart n u) (w_trace w') -> In (EvStart n u) (w_trace w) \/
    exists i c rest, story i (w_log w') = Rec n ARun c (Some i) :: rest /\ outcomes n rest /\
      (~ In (EvTerminate n u) (w_trace w') -> length rest = 1%nat) /\ (forall m v, seen_run w' m v i -> m = n /\ v = u).
Proof. exact every_start. Qed.
Print Assumptions c22_session.

(** Nothing else is recorded under the ids of runs. *)
Theorem c22_no_stray : forall orc cf, proper_session orc -> forall fuel w i,
  distinct_names w -> no_runs w -> w_queue w = [] -> w_orphans w = [] -> new_id i w ->
  (forall k, o_hook orc k = None) -> snd (serve orc cf fuel w) <> OutOfFuel ->
  (forall n u, ~ seen_run (fst (serve orc cf fuel w)) n u i) -> story i (w_log (fst (serve orc cf fuel w))) = [].
Proof. exact no_stray. Qed.
Print Assumptions c22_no_stray.

(** Tasks of all four executions, started twice; one run is terminated. *)
Example c22_session_met :
  let orc := ex_code good_script ex_kinds_env in
  let r := serve orc ex_config 60 ex_kinds in
  proper_session orc /\ distinct_names ex_kinds /\ no_runs ex_kinds /\ (forall i, new_id i ex_kinds) /\ snd r = Returns tt /\
  ex_records (fst r) =
    [(1, ARun, Some 20); (1, ASuccess, Some 20); (2, ARun, Some 36); (2, AFail, Some 36); (3, ARun, Some 49); (3, AInaction, Some 49);
     (4, ARun, Some 64); (4, ASuccess, Some 64); (1, ARun, Some 86); (1, ASuccess, Some 86); (2, ARun, Some 102); (3, ARun, Some 114);
     (4, ARun, Some 128); (3, ASuccess, Some 114); (4, AFail, Some 128); (2, ATerminate, Some 102)] /\
  filter (fun e => match e with EvStart _ _ | EvTerminate _ _ => true | _ => false end) (w_trace (fst r)) =
    [EvTerminate 2 5; EvStart 4 7; EvStart 3 6; EvStart 2 5; EvStart 1 4; EvStart 4 3; EvStart 3 2; EvStart 2 1; EvStart 1 0].
Proof.
  split; [apply kinds_proper|]. split; [repeat constructor; cbn; intuition discriminate|]. split; [reflexivity|].
  split; [intros i; apply world_new; cbn; intuition (subst; reflexivity)|]. split; [vm_compute; reflexivity|]. split; vm_compute; reflexivity.
Qed.

(** A run whose child process dies by itself has no outcome. *)
Theorem c22_killed_refuted : exists orc cf fuel w w' i, (forall k, o_write orc k = true) /\ (forall k, proper (o_script orc k)) /\ w_log w = [] /\
  serve orc cf fuel w = (w', Returns tt) /\ w_log w' = [Rec 1 ARun (w_clock w) (Some i)] /\ w_queue w' = [] /\ (forall u, ~ live_in w' u).
Proof. exact killed_lost. Qed.
Print Assumptions c22_killed_refuted.

(** A run that is terminated when it has just ended has two outcomes. *)
Theorem c22_terminated_refuted : exists orc cf fuel w w' i, proper_session orc /\ (forall k, o_hook orc k = None) /\ w_log w = [] /\
  serve orc cf fuel w = (w', Returns tt) /\
  w_log w' = [Rec 1 ARun (w_clock w) (Some i); Rec 1 ASuccess (w_clock w) (Some i); Rec 1 ATerminate (w_clock w) (Some i)].
Proof. exact two_outcomes. Qed.
Print Assumptions c22_terminated_refuted.

(** Asynchronous runs whose setup fails have no outcome. *)
Theorem c22_async_setup_refuted : exists orc cf fuel w w' i, (forall k, o_write orc k = true) /\ w_log w = [] /\
  serve orc cf fuel w = (w', Returns tt) /\ w_log w' = [Rec 1 ARun (w_clock w) (Some i)] /\
  (forall u, ~ live_in w' u) /\ status_of 1 w' = Some ARun.
Proof. exact async_setup_lost. Qed.
Print Assumptions c22_async_setup_refuted.

(** A run may have two. *)
Theorem c22_finish_refuted : exists orc cf fuel w i, (forall k, o_write orc k = true) /\ w_log w = [] /\
  w_log (fst (start_async orc cf fuel 1 w)) =
    [ex_run_rec i ARun; ex_run_rec i ASuccess; ex_run_rec i ARun; ex_run_rec i AFail].
Proof. exact finish_twice. Qed.
Print Assumptions c22_finish_refuted.

(** The outcome of a run that asks for a restart lacks its id. *)
Theorem c22_restart_refuted : exists orc cf fuel w i, (forall k, o_write orc k = true) /\ (forall k, tidy (o_script orc k)) /\ w_log w = [] /\
  w_log (fst (start_async orc cf fuel 1 w)) = [Rec 1 ARun 1000 (Some i); Rec 1 ASuccess 1000 None].
Proof. exact restart_no_id. Qed.
Print Assumptions c22_restart_refuted.
