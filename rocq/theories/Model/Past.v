(** Model of the conditions about what tasks have done, as the API builds them:
    TimeActionWrapper and TimeCondWrapper (rocketry/conditions/api.py:30-123, 290-293), the task
    and the period TaskStatusMixin uses (rocketry/conditions/task/utils.py:62-66) and Task.period
    (rocketry/core/task.py:1343-1368). *)
From Coq Require Import List Bool ZArith.
From Verif Require Import Model.Base Model.Interval Model.Anchored Model.Period Model.Condition Model.History.
Import ListNotations.
Local Open Scope Z_scope.
Local Open Scope list_scope.

(** What Task.period looks at in a start condition: whether it is a TaskSucceeded, a TaskFinished,
    anything else (also the wrappers of the API, which are of neither class), or an All of such
    conditions (an All has no All among its parts, core/condition/base.py:172-176). *)
Inductive part : Type := PartSucceeded | PartFinished | PartOther.
Inductive start_cond : Type := StartOne (c : part) | StartAll (cs : list part).

(** core/task.py:1343-1368 Task.period.  Conditions have no attribute kwargs, so reading
    [cond.kwargs] raises AttributeError (lines 1356, 1362); line 1362 tests for TaskFinished twice,
    and for TaskSucceeded not at all.  What would follow the lookups is never reached. *)
Definition task_period (c : start_cond) : result tperiod :=
  match c with
  | StartOne PartSucceeded | StartOne PartFinished => Err AttributeError
  | StartOne PartOther => Ok (mk_static None None)
  | StartAll cs =>
      if existsb (fun c => match c with PartFinished => true | _ => false end) cs
      then Err AttributeError
      else Ok (mk_static None None)
  end.

(** A task of the session: its name, what it remembers and its start condition *)
Record ptask : Type := PTask { pt_name : Z; pt_state : tstate; pt_start : start_cond }.

(** session.py:227-233 Session.__getitem__ *)
Fixpoint find_task (n : Z) (tasks : list ptask) : result ptask :=
  match tasks with
  | [] => Err KeyError
  | t :: tasks => if pt_name t =? n then Ok t else find_task n tasks
  end.

(** The last_... properties of the task (core/task.py:1150-1192, 1244-1260): with
    force_status_from_logs in its own session, [own_force], they are read from the log *)
Definition remembered (own_force : bool) (l : log) (t : ptask) : tstate :=
  if own_force then TState (last_from_log l (pt_name t)) (ts_status (pt_state t)) else pt_state t.

(** conditions/task/utils.py:62-111 get_measurement with base.py:265-272 observe.  [named] is the
    task of the condition, [current] the task whose condition is observed (None in a condition of
    the session).  [dforce] is force_status_from_logs of the default session (line 66 reads the
    class attribute [session]), [own_force] that of the session of the task. *)
Definition past_observe (dforce own_force : bool) (l : log) (tasks : list ptask) (current : option ptask)
    (c : comps) (w : watched) (named : option Z) (period : option tperiod) (fuel : nat) (now : Z) : outcome bool :=
  let observe_of (p : tperiod) (t : ptask) :=
    status_observe dforce c (remembered own_force l t) l (pt_name t) w fuel p now in
  let of_task (t : option ptask) :=
    match period, t with
    | Some p, Some t => observe_of p t
    | None, Some t => obind (of_result (task_period (pt_start t))) (fun p => observe_of p t)
    | Some p, None => obind (get_period_span fuel (Some p) now) (fun _ => Raises AttributeError)
    | None, None => Raises AttributeError
    end in
  match named with
  | Some n => obind (of_result (find_task n tasks)) (fun t => of_task (Some t))
  | None => of_task current
  end.

(** The forms: succeeded("x") has no period (api.py:121-123); succeeded("x").this_hour,
    .this_minute, .this_day or .today, .this_week and .this_month have the whole period
    (api.py:94-119, 67-70), and with between, before, after, on and starting a part of it
    (api.py:37-61) *)
Definition past_ever : option tperiod := None.
Definition past_this (c : acls) : option tperiod :=
  match mk_anchored c None None false false false with Ok p => Some (PAnch p) | Err _ => None end.
Definition past_this_between (c : acls) (s e : option aval) : result tperiod :=
  match mk_anchored c s e false false false with Ok p => Ok (PAnch p) | Err x => Err x end.
