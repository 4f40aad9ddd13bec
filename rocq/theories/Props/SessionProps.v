(** C35: running selected tasks. *)
From Coq Require Import Arith Lia.
From Verif Require Import Model.Base Model.History Model.World Model.Run Model.Scheduler.
From Verif Require Import Spec.SchedulerSpec Proofs.SessionProofs Proofs.NamedProofs Proofs.SchedulerExamples Proofs.SessionExamples.
Open Scope Z_scope.

(** Whatever comes out, the settings of all tasks and the shut condition are
    as before. *)
Theorem c35_restored : forall orc cf fuel names x oc w w' o, distinct_names w ->
  session_run orc cf fuel names x oc w = (w', o) -> o <> OutOfFuel ->
  settings w' = settings w /\ w_shut w' = w_shut w.
Proof. exact run_restores. Qed.
Print Assumptions c35_restored.

Theorem c35_one_cycle : forall orc cf fuel names x oc w w' o evs,
  session_run orc cf fuel names x oc w = (w', o) -> happened w w' evs -> (cycles evs <= 1)%nat.
Proof. exact run_one_cycle. Qed.
Print Assumptions c35_one_cycle.

(** A task that is not named does not start, if it has no request waiting and
    nobody requests or enables it meanwhile. *)
Theorem c35_only_named : forall orc cf fuel names x oc w w' o evs t, distinct_names w ->
  (forall p, never orc (MRequest (t_name t) p)) -> never orc (MDisable (t_name t) false) ->
  session_run orc cf fuel names x oc w = (w', o) -> happened w w' evs ->
  In t (w_tasks w) -> ~ In (t_name t) names -> ~ requested t -> forall u, ~ In (EvStart (t_name t) u) evs.
Proof. exact run_only_named. Qed.
Print Assumptions c35_only_named.

(** The third of the three tasks of c35_met below *)
Example c35_only_named_met : let t := ex_task (ex_cfg 3 XMain 0) in
  (forall p, never (ex_oracle ex_finish) (MRequest (t_name t) p)) /\ never (ex_oracle ex_finish) (MDisable (t_name t) false) /\
  In t (w_tasks (ex_chosen [])) /\ ~ In (t_name t) [1; 2] /\ ~ requested t.
Proof.
  split; [intros p k; cbn; intuition discriminate|]. split; [intros k; cbn; intuition discriminate|].
  split; [vm_compute; intuition|]. split; [cbn; intuition discriminate|]. intros H. apply H. reflexivity.
Qed.

Theorem c35_unnamed_requested_refuted : exists orc cf fuel names w w' evs t u, distinct_names w /\
  (forall n p, never orc (MRequest n p)) /\ session_run orc cf fuel names None false w = (w', Returns tt) /\ happened w w' evs /\
  In t (w_tasks w) /\ ~ In (t_name t) names /\ In (EvStart (t_name t) u) evs.
Proof. exact unnamed_requested. Qed.
Print Assumptions c35_unnamed_requested_refuted.

(** In a session nobody puts on hold, whose one cycle was completed, every
    named task was started: whether it was disabled and whatever its condition
    says.  It must not run in a process, and be able to start another run. *)
Theorem c35_named : forall orc cf fuel names x w w' o evs t, distinct_names w -> never orc (MHold true) ->
  session_run orc cf fuel names x false w = (w', o) -> happened w w' evs -> In EvCycle evs -> w_cycles w' = 1%nat ->
  In t (w_tasks w) -> In (t_name t) names -> cyclic_task t ->
  ~ runs_as cf t x XProcess -> (runs_as cf t x XMain \/ multilaunch cf t \/ live_runs t = []) ->
  exists u, In (EvStart (t_name t) u) evs.
Proof. exact run_named. Qed.
Print Assumptions c35_named.

(** A task run in a process may find no process free in the one cycle: it does
    not run, and its request stays for the next session. *)
Theorem c35_named_process_refuted : exists orc cf fuel names w w' evs t, distinct_names w /\
  (forall k m, In m (o_env orc k) -> exists u s, m = MProcess u s) /\
  session_run orc cf fuel names None false w = (w', Returns tt) /\ happened w w' evs /\ In EvCycle evs /\ w_cycles w' = 1%nat /\
  In t (w_tasks w) /\ In (t_name t) names /\ cyclic_task t /\ live_runs t = [] /\
  (forall u, ~ In (EvStart (t_name t) u) evs) /\ exists t', In t' (w_tasks w') /\ t_name t' = t_name t /\ requested t'.
Proof. exact named_process. Qed.
Print Assumptions c35_named_process_refuted.

(** A name that no task has is passed over: nothing runs and nothing is raised. *)
Theorem c35_unknown_refuted : exists orc cf fuel names w w', distinct_names w /\ w_tasks w <> [] /\ names <> [] /\
  (forall n, In n names -> ~ In n (map t_name (w_tasks w))) /\
  session_run orc cf fuel names None false w = (w', Returns tt) /\ w_cycles w' = 1%nat /\ ex_started w' = [].
Proof. exact unknown_name. Qed.
Print Assumptions c35_unknown_refuted.

(** Of three tasks whose conditions all hold, one disabled, the first two are
    run by name: both start, the third does not, in one cycle; afterwards the
    second is disabled again. *)
Example c35_met : let w := ex_chosen [] in let r := session_run (ex_oracle ex_finish) ex_config 40 [1; 2] (Some XAsync) false w in
  distinct_names w /\ snd r = Returns tt /\ map fst (ex_started (fst r)) = [2; 1] /\ cycles (ex_events (fst r)) = 1%nat /\
  settings (fst r) = settings w /\ w_shut (fst r) = ShutCycles 5 /\ map t_disabled (w_tasks (fst r)) = [false; true; false].
Proof. split; [repeat constructor; cbn; intuition discriminate|]. repeat split; vm_compute; reflexivity. Qed.

(** The hypotheses of c35_named: the second of three tasks, disabled, is run
    by name as a coroutine. *)
Example c35_named_met : let w := ex_chosen [] in let r := session_run (ex_oracle ex_finish) ex_config 40 [1; 2] (Some XAsync) false w in
  let t := ex_off (ex_cfg 2 XMain 5) [] in
  distinct_names w /\ never (ex_oracle ex_finish) (MHold true) /\ snd r = Returns tt /\ existsb (fun e => match e with EvCycle => true | _ => false end) (ex_events (fst r)) = true /\
  w_cycles (fst r) = 1%nat /\ In t (w_tasks w) /\ cyclic_task t /\ ~ runs_as ex_config t (Some XAsync) XProcess /\ live_runs t = [].
Proof.
  split; [repeat constructor; cbn; intuition discriminate|]. split; [intros k; cbn; intuition discriminate|]. split; [vm_compute; reflexivity|].
  split; [vm_compute; reflexivity|]. split; [vm_compute; reflexivity|]. split; [right; now left|]. split; [now split|]. split; [discriminate|reflexivity].
Qed.
