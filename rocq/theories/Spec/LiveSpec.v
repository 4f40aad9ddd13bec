(** Sessions in which the tasks that are due can be run (C76). *)
From Coq Require Import ZArith List.
From Verif Require Import Model.Base Model.Period Model.Condition Model.History Spec.HistorySpec Spec.SchedulerSpec Model.World Model.Run Model.Scheduler Spec.OnceSpec.
Import ListNotations.
Open Scope Z_scope.

(** Records can always be written, and runs always be made: parameters, run ids,
    threads and processes. *)
Definition always_written (orc : oracle) : Prop := forall k, o_write orc k = true.
Definition always_made (orc : oracle) : Prop := forall k,
  o_prep orc k = None /\ (exists i, o_run_id orc k = Ok i) /\ o_spawn orc k = None /\ o_boot orc k = true.

(** The start condition of [me] holds wherever [gate] does, given the task's
    cached status, the log and the time. *)
Definition follows (orc : oracle) (me : Z) (gate : HistorySpec.world -> Z -> bool) : Prop :=
  forall k w t, find_task me w = Some t -> gate (t_state t, w_log w) (w_clock w) = true -> o_cond orc k me w = Ok true.

(** What the task's cache says was recorded.  (So it is in a new session.) *)
Definition cache_recorded (me : Z) (w : world) : Prop :=
  forall t a c, In t (w_tasks w) -> t_name t = me -> ts_last (t_state t) a = Some c ->
  exists r, In r (w_log w) /\ about me [a] r /\ r_created r = c.

(** [s] to [e] is an occurrence of the period: at each moment in it the part of
    the history that is looked at begins with [s]. *)
Definition occurrence (p : tperiod) (s e : Z) : Prop := forall fuel d, s < d < e ->
  is_in_period fuel p d = Returns true /\ get_period_span fuel (Some p) d = Returns (s, d).

(** The task [me] may be started when the scheduler comes to it: it is not
    disabled and not running (or may run more than once). *)
Definition ready (cf : config) (me : Z) (w : world) : Prop := w_enabled w = true /\
  exists t, In t (w_tasks w) /\ t_name t = me /\ cyclic_task t /\ t_disabled t = false /\ tc_always_false (t_cfg t) = false /\
    may_start cf t.

(** The tasks after some events *)
Fixpoint tasks_after (ts : list task) (evs : list event) : list task :=
  match evs with
  | [] => ts
  | EvState ts' :: evs => tasks_after ts' evs
  | _ :: evs => tasks_after ts evs
  end.
(** If [me] is run as a process, fewer processes are running than are allowed
    when the scheduler comes to it between [w1] and [w2]. *)
Definition slot_when_considered (cf : config) (me : Z) (w1 w2 : world) : Prop :=
  (exists t, In t (w_tasks w1) /\ t_name t = me /\ executes cf t XProcess) ->
  forall before after, happened w1 w2 (before ++ EvConsider me false :: after) ->
  Z.of_nat (length (live_process_runs (tasks_after (w_tasks w1) before))) < cf_max_process cf.

(** A cycle of the main loop, from its beginning [w1] to its end [w2] *)
Inductive cycle_of (orc : oracle) (cf : config) : nat -> world -> world -> world -> Prop :=
| this_cycle fuel w wa w1 w2 : check_shut_cond orc w = (wa, Returns false) -> env orc wa = (w1, Returns tt) ->
    w_shutdown w1 = false -> w_restart w1 = false -> run_cycle orc cf fuel w1 = (w2, Returns tt) ->
    cycle_of orc cf (S fuel) w w1 w2
| later_cycle fuel w wa wb wc w1 w2 : check_shut_cond orc w = (wa, Returns false) -> env orc wa = (wb, Returns tt) ->
    w_shutdown wb = false -> w_restart wb = false -> run_cycle orc cf fuel wb = (wc, Returns tt) ->
    cycle_of orc cf fuel wc w1 w2 -> cycle_of orc cf (S fuel) w w1 w2.
(** ... of a session that is served from [w] on *)
Definition session_cycle (orc : oracle) (cf : config) (fuel : nat) (w w1 w2 : world) : Prop :=
  exists w0, startup orc cf fuel (set_flags true false false (w_force w) w) = (w0, Returns tt) /\ cycle_of orc cf fuel w0 w1 w2.

(** The log from [w1] on *)
Definition recorded_since (w1 w2 : world) (r : record) : Prop := exists new, w_log w2 = w_log w1 ++ new /\ In r new.

(** The session in which the cycle takes place: time goes on, records can be
    written, nobody disables [me] or holds the scheduler. *)
Record fair_session (orc : oracle) (me : Z) (time : nat -> Z) (w : world) : Prop := FairSession {
  fs_time : time_goes_on orc time;
  fs_clock : w_clock w <= time (w_tick w);
  fs_written : always_written orc;
  fs_disable : never orc (MDisable me true);
  fs_hold : never orc (MHold true);
  fs_names : distinct_names w;
  fs_cache : cache_recorded me w }.

(** A moment of the cycle *)
Definition between (w1 v w2 : world) : Prop :=
  (exists x, w_log v = w_log w1 ++ x) /\ (exists y, w_log w2 = w_log v ++ y) /\ w_clock w1 <= w_clock v <= w_clock w2.
(** The condition holds all through the cycle. *)
Definition due_during (me : Z) (gate : HistorySpec.world -> Z -> bool) (w1 w2 : world) : Prop :=
  forall v t, between w1 v w2 -> find_task me v = Some t -> gate (t_state t, w_log v) (w_clock v) = true.
(** [me] is run in the cycle from [w1] to [w2], of which [w'] knows. *)
Definition run_in_cycle (me : Z) (w1 w2 w' : world) : Prop :=
  exists r, recorded_since w1 w' r /\ run_record me r /\ w_clock w1 <= r_created r <= w_clock w2.
