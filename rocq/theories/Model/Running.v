(** Model of the conditions about what is running: TaskRunning
    (rocketry/conditions/task/task.py:147-222) with the API around it
    (rocketry/conditions/api.py:137-193), and SchedulerCycles and SchedulerStarted
    (rocketry/conditions/scheduler.py) with theirs (api.py:298-307). *)
From Coq Require Import List Bool ZArith.
From Verif Require Import Model.Base Model.Interval Model.Period Model.Condition Model.History.
Import ListNotations.
Local Open Scope Z_scope.
Local Open Scope list_scope.

(** A TaskRun in the run stack of a task, core/task.py:47-66: when it was started, and what
    is_alive() answers *)
Record stack_run : Type := StackRun { sr_start : Z; sr_alive : bool }.

(** task.py:172-179: from the run stack *)
Definition running_stack (stack : list stack_run) (s e : Z) : list Z :=
  map sr_start (filter (fun r => sr_alive r && ((s <=? sr_start r) && (sr_start r <=? e))) stack).

(** sorted(records, key=created): stable *)
Fixpoint insert_record (r : record) (l : list record) : list record :=
  match l with
  | [] => [r]
  | r' :: l' => if r_created r <=? r_created r' then r :: l else r' :: insert_record r l'
  end.
Definition sort_records (l : list record) : list record := fold_right insert_record [] l.

Definition is_run (r : record) : bool := action_eqb (r_action r) ARun.
(** task.py:188-192: the run ids of the records that are no starts (None and "" are left out) *)
Definition finished_ids (records : list record) : list Z :=
  flat_map (fun r => match r_run_id r with
                     | Some i => if is_run r then [] else [i]
                     | None => []
                     end) records.
(** task.py:195-199: their times *)
Definition finish_times (records : list record) : list Z :=
  map r_created (filter (fun r => negb (is_run r)) records).

(** task.py:207-210, with run ids *)
Definition id_in (i : option Z) (ids : list Z) : bool :=
  match i with Some i => existsb (Z.eqb i) ids | None => false end.
Definition runs_by_id (records : list record) : list Z :=
  map r_created (filter (fun r => is_run r && negb (id_in (r_run_id r) (finished_ids records))) records).

(** task.py:212-218: the first finish that is not before [created], taken out *)
Fixpoint take_finish (created : Z) (finishes : list Z) : option (list Z) :=
  match finishes with
  | [] => None
  | f :: fs =>
      if created <=? f then Some fs
      else match take_finish created fs with
           | Some fs => Some (f :: fs)
           | None => None
           end
  end.
(** task.py:202-221, without run ids *)
Fixpoint guess_runs (records : list record) (finishes : list Z) : list Z :=
  match records with
  | [] => []
  | r :: records =>
      if is_run r
      then match take_finish (r_created r) finishes with
           | Some finishes => guess_runs records finishes
           | None => r_created r :: guess_runs records finishes
           end
      else guess_runs records finishes
  end.

(** task.py:181-222: from the log.  [has_ids] is whether the records of the repository have a
    field for the run id (log/log_record.py: MinimalRecord and LogRecord have none).  The code
    returns run ids where there are some; only their number is looked at, here they are the times
    of the starts. *)
Definition running_log (has_ids : bool) (l : log) (name s e : Z) : list Z :=
  let records := sort_records (filter_by l name (fun r => (s <=? r_created r) && (r_created r <=? e))) in
  if has_ids then runs_by_id records else guess_runs records (finish_times records).

(** task.py:167-222 get_measurement and base.py:265-272 observe *)
Definition running_observe (force has_ids : bool) (c : comps) (stack : list stack_run) (l : log) (name : Z)
    (fuel : nat) (period : option tperiod) (now : Z) : outcome bool :=
  obind (get_period_span fuel period now) (fun se =>
    Returns (comparable_observe c (MList
      (if force then running_log has_ids l name (fst se) (snd se) else running_stack stack (fst se) (snd se))))).

(** api.py:173-175 get_cond, 158-171 more_than, less_than, between: the periods *)
Definition running_any : option tperiod := None.
Definition running_more_than (delta : Z) : option tperiod := Some (mk_span (Some delta) None None).
Definition running_less_than (delta : Z) : option tperiod := Some (mk_span None (Some delta) None).
Definition running_between (more_than less_than : Z) : option tperiod :=
  Some (mk_span (Some more_than) (Some less_than) None).

(** scheduler.py:12-14 SchedulerCycles with 265-272 observe of base.py; [n_cycles] is None before
    the scheduler has started (core/schedule.py:308 sets it) *)
Definition cycles_observe (c : comps) (n_cycles : option Z) : outcome bool :=
  match n_cycles with
  | Some n => Returns (comparable_observe c (MNum n))
  | None => Raises AttributeError
  end.
(** api.py:301-307 scheduler_cycles *)
Definition cycles_comps (more_than less_than : option Z) : comps :=
  match more_than with Some n => [(OpGt, BInt n)] | None => [] end ++
  match less_than with Some n => [(OpLt, BInt n)] | None => [] end.

(** scheduler.py:57-60 SchedulerStarted.get_state; [startup_time] is None before the scheduler has
    started (core/schedule.py:309 sets it) *)
Definition started_observe (fuel : nat) (period : option tperiod) (startup_time : option Z) (now : Z) : outcome bool :=
  obind (get_period_span fuel period now) (fun se =>
    match startup_time with
    | Some dt => Returns ((fst se <=? dt) && (dt <=? snd se))
    | None => Raises AttributeError
    end).
(** api.py:298-299 scheduler_running *)
Definition scheduler_period (more_than less_than : option Z) : option tperiod :=
  Some (mk_span more_than less_than None).
