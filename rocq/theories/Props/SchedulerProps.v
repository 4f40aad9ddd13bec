(** C26-C30, C34: what the scheduler starts and when. *)
From Verif Require Import Model.Base Model.History Model.World Model.Run Model.Scheduler.
From Verif Require Import Spec.SchedulerSpec Proofs.LimitProofs Proofs.PriorityProofs Proofs.HoldProofs Proofs.CycleProofs.
From Verif Require Import Proofs.SchedulerExamples.
Open Scope Z_scope.

(** C26 *)
Theorem c26_one_live_run : forall orc cf fuel w, distinct_names w ->
  (forall ts t, observed w ts -> In t ts -> ~ executes cf t XMain -> ~ multilaunch cf t -> (length (live_runs t) <= 1)%nat) ->
  forall ts t, observed (fst (serve orc cf fuel w)) ts -> In t ts ->
    ~ executes cf t XMain -> ~ multilaunch cf t -> (length (live_runs t) <= 1)%nat.
Proof. exact one_live_run. Qed.
Print Assumptions c26_one_live_run.

Example c26_met : distinct_names ex_three /\
  (forall ts t, observed ex_three ts -> In t ts -> ~ executes ex_config t XMain -> ~ multilaunch ex_config t ->
    (length (live_runs t) <= 1)%nat) /\
  (let w := fst (serve (ex_oracle ex_late) ex_config 60 ex_three) in
   ex_started w = [(1, 0%nat); (2, 1%nat)] /\ ex_max_live w = 1%nat).
Proof.
  split; [|split; [|split; vm_compute; reflexivity]].
  - repeat constructor; cbn; intuition discriminate.
  - intros ts t [->|[]]. intros [<-|[<-|[<-|[]]]] _ _; cbn; repeat constructor.
Qed.

(** C27 *)
Theorem c27_process_limit : forall orc cf fuel w, distinct_names w ->
  (forall ts, observed w ts -> Z.of_nat (length (live_process_runs ts)) <= cf_max_process cf) ->
  forall ts, observed (fst (serve orc cf fuel w)) ts ->
    Z.of_nat (length (live_process_runs ts)) <= cf_max_process cf.
Proof. exact process_limit. Qed.
Print Assumptions c27_process_limit.

Example c27_met : distinct_names ex_three /\
  (forall ts, observed ex_three ts -> Z.of_nat (length (live_process_runs ts)) <= cf_max_process ex_config) /\
  ex_max_procs (fst (serve (ex_oracle ex_late) ex_config 60 ex_three)) = 2%nat /\ cf_max_process ex_config = 2.
Proof.
  split; [|split; [|split; vm_compute; reflexivity]].
  - repeat constructor; cbn; intuition discriminate.
  - intros ts [->|[]]. vm_compute. discriminate.
Qed.

(** C28 *)
Theorem c28_considered_by_priority : forall orc cf fuel w evs ta tb ha hb, distinct_names w ->
  happened w (fst (run_cycle orc cf fuel w)) evs -> In ta (w_tasks w) -> In tb (w_tasks w) ->
  earlier evs (EvConsider (t_name ta) ha) (EvConsider (t_name tb) hb) -> priority tb <= priority ta.
Proof. exact consider_order. Qed.
Print Assumptions c28_considered_by_priority.

Theorem c28_started_by_priority : forall orc cf fuel w evs, distinct_names w ->
  happened w (fst (run_cycle orc cf fuel w)) evs ->
  forall a ua b ub ta tb, earlier evs (EvStart a ua) (EvStart b ub) ->
    In ta (w_tasks w) -> t_name ta = a -> In tb (w_tasks w) -> t_name tb = b -> a <> b /\ priority tb <= priority ta.
Proof. exact priority_order. Qed.
Print Assumptions c28_started_by_priority.

(** Before a task starts, every cyclic task of higher priority had its turn. *)
Theorem c28_higher_had_its_turn : forall orc cf fuel w evs, distinct_names w ->
  happened w (fst (run_cycle orc cf fuel w)) evs ->
  forall l1 b ub l2 ta tb, evs = l1 ++ EvStart b ub :: l2 ->
    In ta (w_tasks w) -> In tb (w_tasks w) -> t_name tb = b -> priority tb < priority ta -> cyclic_task ta ->
    exists held, In (EvConsider (t_name ta) held) l1.
Proof. exact higher_considered. Qed.
Print Assumptions c28_higher_had_its_turn.

Theorem c28_each_considered_once : forall orc cf fuel w evs, distinct_names w ->
  happened w (fst (run_cycle orc cf fuel w)) evs ->
  forall t, snd (run_cycle orc cf fuel w) = Returns tt -> In t (w_tasks w) -> cyclic_task t ->
    exists held, considered (t_name t) evs = [EvConsider (t_name t) held].
Proof. exact cycle_considers. Qed.
Print Assumptions c28_each_considered_once.

Example c28_met : distinct_names ex_ranked /\ Forall cyclic_task (w_tasks ex_ranked) /\
  map priority (w_tasks ex_ranked) = [0; 5; 2] /\
  (let r := run_cycle (ex_oracle ex_quiet) ex_config 30 ex_ranked in
   happened ex_ranked (fst r) (rev (w_trace (fst r))) /\ snd r = Returns tt /\
   ex_started (fst r) = [(2, 0%nat); (3, 1%nat); (1, 2%nat)]).
Proof.
  split; [repeat constructor; cbn; intuition discriminate|]. split; [repeat constructor|]. split; [reflexivity|].
  split; [|split; vm_compute; reflexivity]. unfold happened. now rewrite rev_involutive, app_nil_r.
Qed.

(** C29 *)
Theorem c29_disabled_not_started : forall orc cf fuel w evs t, distinct_names w ->
  (forall p, never orc (MRequest (t_name t) p)) -> never orc (MDisable (t_name t) false) ->
  In t (w_tasks w) -> t_disabled t = true -> ~ requested t -> happened w (fst (serve orc cf fuel w)) evs ->
  forall u, ~ In (EvStart (t_name t) u) evs.
Proof. exact disabled_idle. Qed.
Print Assumptions c29_disabled_not_started.

Example c29_disabled_met : let t := ex_off (ex_cfg 2 XMain 5) [] in
  (forall p, never (ex_oracle ex_quiet) (MRequest (t_name t) p)) /\ never (ex_oracle ex_quiet) (MDisable (t_name t) false) /\
  In t (w_tasks (ex_disabled [])) /\ t_disabled t = true /\ ~ requested t.
Proof.
  split; [intros p k []|]. split; [intros k []|]. split; [vm_compute; intuition|]. split; [reflexivity|].
  intros H. apply H. reflexivity.
Qed.

(** The requests waiting at the start and those made are, in order, the ones
    taken and then the ones still waiting. *)
Theorem c29_requests_in_order : forall orc cf fuel w evs t, distinct_names w -> In t (w_tasks w) ->
  happened w (fst (serve orc cf fuel w)) evs ->
  exists t', In t' (w_tasks (fst (serve orc cf fuel w))) /\ t_name t' = t_name t /\
    t_batches t ++ requests (t_name t) evs = takes (t_name t) evs ++ t_batches t'.
Proof. exact fifo. Qed.
Print Assumptions c29_requests_in_order.

(** Each taking belongs to a start of its own. *)
Theorem c29_taken_by_a_start : forall orc cf fuel w evs l1 n p l2, happened w (fst (serve orc cf fuel w)) evs ->
  evs = l1 ++ EvTake n p :: l2 ->
  exists l0 u l, l1 = l0 ++ EvStart n u :: l /\ forall e, In e l -> ~ decision e.
Proof. exact take_starts. Qed.
Print Assumptions c29_taken_by_a_start.

(** Condition and disabled flag play no role. *)
Theorem c29_requested_starts : forall orc cf fuel w w' evs t, distinct_names w -> w_enabled w = true -> never orc (MHold true) ->
  In t (w_tasks w) -> cyclic_task t -> requested t -> may_start cf t -> ~ executes cf t XProcess ->
  run_cycle orc cf fuel w = (w', Returns tt) -> happened w w' evs -> exists u, In (EvStart (t_name t) u) evs.
Proof. exact requested_starts. Qed.
Print Assumptions c29_requested_starts.

(** A process needs a free slot when its turn comes. *)
Theorem c29_requested_process_starts : forall orc cf fuel w w' evs t, distinct_names w -> w_enabled w = true -> never orc (MHold true) ->
  In t (w_tasks w) -> cyclic_task t -> requested t -> may_start cf t -> free_slot cf w ->
  cycle_task orc cf fuel (t_name t) w = (w', Returns tt) -> happened w w' evs -> exists u, In (EvStart (t_name t) u) evs.
Proof. exact requested_process_starts. Qed.
Print Assumptions c29_requested_process_starts.

Example c29_met : distinct_names (ex_disabled []) /\
  (let r := serve (ex_oracle ex_quiet) ex_config 60 (ex_disabled []) in
   snd r = Returns tt /\ map fst (ex_started (fst r)) = [1; 1; 1]) /\
  (let r := serve (ex_oracle ex_quiet) ex_config 60 (ex_disabled [ex_params 7; ex_params 8]) in
   snd r = Returns tt /\ map fst (ex_started (fst r)) = [2; 1; 2; 1; 1] /\
   takes 2 (rev (w_trace (fst r))) = [ex_params 7; ex_params 8]) /\
  (let t := ex_off (ex_cfg 2 XMain 5) [ex_params 7] in cyclic_task t /\ requested t /\ may_start ex_config t /\ ~ executes ex_config t XProcess).
Proof.
  split; [repeat constructor; cbn; intuition discriminate|]. split; [split; vm_compute; reflexivity|].
  split; [repeat split; vm_compute; reflexivity|]. split; [now split|]. split; [discriminate|]. split; [now left|discriminate].
Qed.
Example c29_process_met : let w := ex_world 1 [ex_off (ex_cfg 2 XProcess 5) [ex_params 7]] in
  free_slot ex_config w /\ snd (cycle_task (ex_oracle ex_quiet) ex_config 60 2 w) = Returns tt /\
  ex_started (fst (cycle_task (ex_oracle ex_quiet) ex_config 60 2 w)) = [(2, 0%nat)].
Proof. split; [reflexivity|split; vm_compute; reflexivity]. Qed.

(** Not so for tasks marked on_startup or on_shutdown: cycles do not serve
    their requests. *)
Theorem c29_special_request_refuted : exists orc cf fuel w t,
  distinct_names w /\ w_enabled w = true /\ never orc (MHold true) /\ In t (w_tasks w) /\ requested t /\ may_start cf t /\
  ~ executes cf t XProcess /\ snd (run_cycle orc cf fuel w) = Returns tt /\
  forall u, ~ In (EvStart (t_name t) u) (rev (w_trace (fst (run_cycle orc cf fuel w)))).
Proof. exact special_request_ignored. Qed.
Print Assumptions c29_special_request_refuted.

(** C30 *)
Theorem c30_held_starts_nothing : forall orc cf fuel w evs, w_enabled w = false -> never orc (MHold false) ->
  happened w (fst (main_loop orc cf fuel w)) evs -> forall n u, ~ In (EvStart n u) evs.
Proof. exact held_no_start. Qed.
Print Assumptions c30_held_starts_nothing.

(** With any holding and releasing, a cycle starts a task only on a turn that
    found the scheduler not on hold. *)
Theorem c30_starts_only_when_released : forall orc cf fuel w evs l1 b u l2, distinct_names w ->
  happened w (fst (run_cycle orc cf fuel w)) evs -> evs = l1 ++ EvStart b u :: l2 ->
  exists l0 l, l1 = l0 ++ EvConsider b false :: l /\ (forall e, In e l -> ~ decision e).
Proof. exact start_after_consider. Qed.
Print Assumptions c30_starts_only_when_released.

Theorem c30_released_resumes : forall orc cf fuel w evs t, distinct_names w -> w_enabled w = true -> never orc (MHold true) ->
  snd (run_cycle orc cf fuel w) = Returns tt -> happened w (fst (run_cycle orc cf fuel w)) evs ->
  In t (w_tasks w) -> cyclic_task t -> considered (t_name t) evs = [EvConsider (t_name t) false].
Proof. exact released_considers. Qed.
Print Assumptions c30_released_resumes.

Example c30_met : w_enabled (ex_held ex_ranked) = false /\ never (ex_oracle ex_quiet) (MHold false) /\
  never (ex_oracle ex_quiet) (MHold true) /\
  (let r := main_loop (ex_oracle ex_quiet) ex_config 60 (ex_held ex_ranked) in
   snd r = Returns tt /\ ex_started (fst r) = [] /\ length (considered 2 (rev (w_trace (fst r)))) = 3%nat) /\
  (let r := run_cycle (ex_oracle ex_quiet) ex_config 60 ex_ranked in
   snd r = Returns tt /\ considered 2 (rev (w_trace (fst r))) = [EvConsider 2 false]).
Proof.
  split; [reflexivity|]. split; [intros k []|]. split; [intros k []|]. split; repeat split; vm_compute; reflexivity.
Qed.

(** Cycles are counted on hold, too. *)
Theorem c30_held_cycles_counted_refuted : exists orc cf fuel w,
  w_enabled w = false /\ never orc (MHold false) /\ snd (run_cycle orc cf fuel w) = Returns tt /\
  w_cycles (fst (run_cycle orc cf fuel w)) = S (w_cycles w).
Proof. exact held_cycle_counted. Qed.
Print Assumptions c30_held_cycles_counted_refuted.

(** Shutdown tasks start on hold, too. *)
Theorem c30_held_shutdown_starts_refuted : exists orc cf fuel w n u,
  w_enabled w = false /\ never orc (MHold false) /\ snd (run_shutdown_tasks orc cf fuel w) = Returns tt /\ w_trace w = [] /\
  In (EvStart n u) (w_trace (fst (run_shutdown_tasks orc cf fuel w))).
Proof. exact held_shutdown_starts. Qed.
Print Assumptions c30_held_shutdown_starts_refuted.

(** C34 *)
Theorem c34_cycles_start_only_cyclic : forall orc cf fuel w evs t u, distinct_names w ->
  happened w (fst (main_loop orc cf fuel w)) evs -> In t (w_tasks w) -> In (EvStart (t_name t) u) evs -> cyclic_task t.
Proof. exact loop_starts_cyclic. Qed.
Print Assumptions c34_cycles_start_only_cyclic.

Theorem c34_startup_tasks_start : forall orc cf fuel w w' evs t, distinct_names w -> never orc (MDisable (t_name t) true) ->
  In t (w_tasks w) -> tc_startup (t_cfg t) = true -> no_condition t -> t_disabled t = false -> may_start cf t -> ~ executes cf t XProcess ->
  startup orc cf fuel w = (w', Returns tt) -> happened w w' evs -> exists u, In (EvStart (t_name t) u) evs.
Proof. exact startup_runs. Qed.
Print Assumptions c34_startup_tasks_start.

Theorem c34_shutdown_tasks_start : forall orc cf fuel w w' evs t, distinct_names w -> never orc (MDisable (t_name t) true) ->
  In t (w_tasks w) -> tc_shutdown (t_cfg t) = true -> no_condition t -> t_disabled t = false -> may_start cf t -> ~ executes cf t XProcess ->
  run_shutdown_tasks orc cf fuel w = (w', Returns tt) -> happened w w' evs -> exists u, In (EvStart (t_name t) u) evs.
Proof. exact shutdown_runs. Qed.
Print Assumptions c34_shutdown_tasks_start.

Example c34_met : distinct_names ex_phases /\
  (let t := ex_task (ex_special 1 true false) in
   In t (w_tasks ex_phases) /\ no_condition t /\ may_start ex_config t /\ ~ executes ex_config t XProcess) /\
  (let r := startup (ex_oracle ex_quiet) ex_config 60 ex_phases in snd r = Returns tt /\ map fst (ex_started (fst r)) = [1]) /\
  (let r := main_loop (ex_oracle ex_quiet) ex_config 60 ex_phases in snd r = Returns tt /\ map fst (ex_started (fst r)) = [3; 3]) /\
  (let r := run_shutdown_tasks (ex_oracle ex_quiet) ex_config 60 ex_phases in snd r = Returns tt /\ map fst (ex_started (fst r)) = [2]).
Proof.
  split; [repeat constructor; cbn; intuition discriminate|]. split.
  - split; [now left|]. split; [reflexivity|]. split; [right; right; reflexivity|discriminate].
  - repeat split; vm_compute; reflexivity.
Qed.
