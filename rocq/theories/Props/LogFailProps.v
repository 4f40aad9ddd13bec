(** C47: log records that cannot be written. *)
From Verif Require Import Model.Base Model.History Model.World Model.Run Model.Scheduler.
From Verif Require Import Spec.SchedulerSpec Proofs.SchedulerExamples Proofs.TerminationExamples Proofs.ShutdownExamples.
From Verif Require Import Proofs.LogFailProofs Proofs.ThreadFailProofs Proofs.LogFailExamples.
Open Scope Z_scope.

(** Recording a status: the record is added to the log, *)
Theorem c47_recorded : forall orc n a rid v w t, find_task n w = Some t -> o_write orc (w_tick w) = true ->
  exists w', log_action orc false n a rid v w = (w', Returns tt) /\ w_log w' = w_log w ++ [Rec n a (w_clock w) rid] /\
    status_of n w' = Some a /\ forall m, m <> n -> status_of m w' = status_of m w.
Proof. exact log_written. Qed.
Print Assumptions c47_recorded.

(** or nothing is added, the error is raised, and the task has the status
    "run" if a start was to be recorded, "fail" otherwise. *)
Theorem c47_not_recorded : forall orc n a rid v w t, find_task n w = Some t -> o_write orc (w_tick w) = false ->
  exists w', log_action orc false n a rid v w = (w', Raises TaskLoggingError) /\ w_log w' = w_log w /\
    status_of n w' = Some (if action_eqb a ARun then ARun else AFail) /\
    forall m, m <> n -> status_of m w' = status_of m w.
Proof. exact log_fails. Qed.
Print Assumptions c47_not_recorded.

Example c47_recorded_met :
  let orc := ex_writes (ex_until 0) ex_quiet in
  option_map t_name (find_task 2 ex_ranked) = Some 2 /\ o_write orc (w_tick ex_ranked) = true /\
  status_of 2 (fst (log_action orc false 2 ASuccess (Some 5) 0 ex_ranked)) = Some ASuccess.
Proof. repeat split; vm_compute; reflexivity. Qed.
Example c47_not_recorded_met :
  let orc := ex_writes (fun _ => false) ex_quiet in
  option_map t_name (find_task 2 ex_ranked) = Some 2 /\ o_write orc (w_tick ex_ranked) = false /\
  status_of 2 (fst (log_action orc false 2 ASuccess (Some 5) 0 ex_ranked)) = Some AFail.
Proof. repeat split; vm_compute; reflexivity. Qed.

(** With silence_task_logging no such error leaves the scheduler, unless it
    terminated a run. *)
Theorem c47_silenced_partial : forall orc cf, cf_silence_logging cf = true ->
  (forall k n w, o_cond orc k n w <> Err TaskLoggingError) -> (forall k, o_end orc k <> Err TaskLoggingError) ->
  (forall k, o_shut orc k <> Err TaskLoggingError) -> (forall k, o_hook orc k <> Some TaskLoggingError) ->
  forall fuel w w' evs, serve orc cf fuel w = (w', Raises TaskLoggingError) -> happened w w' evs ->
  exists n u, In (EvTerminate n u) evs.
Proof. exact silenced_log_failure. Qed.
Print Assumptions c47_silenced_partial.

(** Terminating a run is not silenced. *)
Theorem c47_silenced_refuted : exists orc cf fuel w, cf_silence_logging cf = true /\
  (forall k n w, o_cond orc k n w <> Err TaskLoggingError) /\ (forall k, o_end orc k <> Err TaskLoggingError) /\
  (forall k, o_shut orc k <> Err TaskLoggingError) /\ (forall k, o_hook orc k <> Some TaskLoggingError) /\
  snd (serve orc cf fuel w) = Raises TaskLoggingError.
Proof. exact silenced_raises. Qed.
Print Assumptions c47_silenced_refuted.

(** No record can be written: the three tasks are started all the same, unless
    the errors are not silenced. *)
Example c47_silenced_met :
  let orc := ex_writes (fun _ => false) ex_quiet in
  let r := run_cycle orc (ex_silent false) 20 ex_ranked in
  cf_silence_logging (ex_silent false) = true /\ snd r = Returns tt /\
  ex_started (fst r) = [(2, 0%nat); (3, 1%nat); (1, 2%nat)] /\ w_log (fst r) = [] /\
  snd (serve orc (ex_silent true) 20 ex_one) = Raises TaskLoggingError /\
  ex_ended ex_one (fst (serve orc (ex_silent true) 20 ex_one)) = [(1, 0%nat)] /\
  snd (run_cycle orc ex_config 20 ex_ranked) = Raises TaskLoggingError.
Proof. repeat split; vm_compute; reflexivity. Qed.

(** Without silence_task_logging, a cycle that ends normally leaves no failure
    of a thread unreported. *)
Theorem c47_threads_reported : forall orc cf fuel w w', cf_silence_logging cf = false -> distinct_names w ->
  run_cycle orc cf fuel w = (w', Returns tt) -> forall r, In r (tracked w') -> rn_exc r = false.
Proof. exact cycle_clean. Qed.
Print Assumptions c47_threads_reported.

(** The start record of a thread fails, or does not. *)
Example c47_threads_met :
  let bad := ex_writes (fun _ => false) ex_quiet in let good := ex_writes (fun _ => true) ex_quiet in
  distinct_names ex_thread /\
  snd (run_cycle bad ex_config 20 ex_thread) = Raises TaskLoggingError /\
  map rn_exc (tracked (fst (run_cycle bad (ex_silent false) 20 ex_thread))) = [true] /\
  snd (run_cycle bad (ex_silent false) 20 ex_thread) = Returns tt /\
  snd (run_cycle good ex_config 20 ex_thread) = Returns tt /\
  map rn_exc (tracked (fst (run_cycle good ex_config 20 ex_thread))) = [false].
Proof. split; [vm_compute; repeat constructor; cbn; intuition discriminate|]. repeat split; vm_compute; reflexivity. Qed.

(** When no record can be written, a run in a thread ends marked as failed to
    log, whatever its code does (so the next cycle reports it, by the theorem
    above). *)
Theorem c47_thread_marked : forall orc u s w t r, (forall k, o_write orc k = false) -> ordinary s ->
  find_run u w = Some (t, r) -> rn_kind r = XThread -> rn_phase r = Busy ->
  exists w', do_move orc (MThread u s) w = (w', Returns tt) /\
    forall r', In r' (tracked w') -> rn_uid r' = u -> rn_exc r' = true.
Proof. exact thread_marked. Qed.
Print Assumptions c47_thread_marked.

(** The thread of a task was started while records could be written. *)
Example c47_thread_marked_met :
  let bad := ex_writes (fun _ => false) ex_quiet in
  let w := fst (run_cycle (ex_writes (fun _ => true) ex_quiet) ex_config 20 ex_thread) in
  ordinary good_script /\ (exists t r, find_run 0 w = Some (t, r) /\ rn_kind r = XThread /\ rn_phase r = Busy) /\
  map rn_exc (tracked w) = [false] /\ map rn_exc (tracked (fst (do_move bad (MThread 0 good_script) w))) = [true].
Proof.
  split; [repeat split; discriminate|]. split; [eexists _, _; split; [vm_compute; reflexivity|]; split; reflexivity|].
  split; vm_compute; reflexivity.
Qed.

(** When only the record of the success cannot be written, the successful run
    is recorded as failed, without its id, and the scheduler ends normally. *)
Theorem c47_thread_once_refuted : exists orc cf fuel w w' i, cf_silence_logging cf = false /\ w_log w = [] /\
  (forall k m, In m (o_env orc k) -> m = MThread 0 good_script) /\ (exists k, forall j, o_write orc j = false <-> j = k) /\
  serve orc cf fuel w = (w', Returns tt) /\
  w_log w' = [Rec 1 ARun (w_clock w) (Some i); Rec 1 AFail (w_clock w) None] /\ return_of 1 w' = Some (s_value good_script).
Proof. exact thread_once. Qed.
Print Assumptions c47_thread_once_refuted.

(** The failure to record the end of an asynchronous run is lost: the
    scheduler ends normally with a start record only. *)
Theorem c47_async_refuted : exists orc cf fuel w w' i, cf_silence_logging cf = false /\ w_log w = [] /\
  serve orc cf fuel w = (w', Returns tt) /\ w_log w' = [Rec 1 ARun (w_clock w) i] /\ status_of 1 w' = Some AFail /\
  (forall u, ~ live_in w' u) /\ forall n u evs, happened w w' evs -> ~ In (EvTerminate n u) evs.
Proof. exact lost_async. Qed.
Print Assumptions c47_async_refuted.
