(** Model of the task log, the task's cached history and the conditions that
    read them: rocketry/core/log/adapter.py, parts of rocketry/core/task.py,
    rocketry/conditions/task/utils.py and task.py, rocketry/conditions/time.py.

    Times are microseconds throughout.  (The code keeps them as floats of
    seconds in the log and the cache and as datetimes in periods; rounding
    between the two is not modelled.) *)
From Verif Require Import Model.Base Model.Interval Model.Period Model.Condition.
Open Scope Z_scope.

(** core/task.py _actions *)
Inductive action : Type := ARun | ASuccess | AFail | ATerminate | AInaction | ACrash.
Definition action_eqb (a b : action) : bool :=
  match a, b with
  | ARun, ARun | ASuccess, ASuccess | AFail, AFail | ATerminate, ATerminate
  | AInaction, AInaction | ACrash, ACrash => true
  | _, _ => false
  end.

(** A log record; tasks are identified by name, here a number. *)
Record record : Type := Rec { r_task : Z; r_action : action; r_created : Z; r_run_id : option Z }.

(** The repository keeps records in the order they were written. *)
Definition log : Type := list record.

(** adapter.py:53-59 filter_by: the task's records meeting a filter *)
Definition filter_by (l : log) (name : Z) (f : record -> bool) : list record :=
  filter (fun r => (r_task r =? name) && f r) l.
(** redbird: query.last(), the last match in repository order or None *)
Definition last_of {A} (l : list A) : option A :=
  match rev l with [] => None | a :: _ => Some a end.
Definition action_in (acts : list action) (r : record) : bool := existsb (action_eqb (r_action r)) acts.
(** adapter.py:102-114 get_latest *)
Definition get_latest (l : log) (name : Z) (acts : list action) : option record :=
  last_of (filter_by l name (action_in acts)).
Definition get_latest_any (l : log) (name : Z) : option record :=
  last_of (filter_by l name (fun _ => true)).

(** core/task.py:907-914 the cached times, and the cached status *)
Record tstate : Type := TState { ts_last : action -> option Z; ts_status : option action }.
Definition fresh_state : tstate := TState (fun _ => None) None.
Definition set_last (f : action -> option Z) (a : action) (t : option Z) : action -> option Z :=
  fun b => if action_eqb a b then t else f b.

(** core/task.py:1148-1195 _set_status.  [t_now] is the clock reading of line
    1155, [t_rec] the later one put in the record (adapter.py:37-45); [ok] is
    whether the handlers accepted the record (when they raise, nothing was
    stored). *)
Definition set_status (st : tstate) (l : log) (name : Z) (a : action) (t_now t_rec : Z)
    (run_id : option Z) (ok : bool) : tstate * log * result unit :=
  if ok
  then (TState (set_last (ts_last st) a (Some t_now)) (Some a),
        l ++ [Rec name a t_rec run_id], Ok tt)
  else if action_eqb a ARun
  then (TState (set_last (ts_last st) ARun (Some t_now)) (Some ARun), l, Err TaskLoggingError)
  else (TState (set_last (ts_last st) AFail (Some t_now)) (Some AFail), l, Err TaskLoggingError).

(** core/task.py:1104-1128 log_record: a record made in a child process *)
Definition log_record (st : tstate) (l : log) (name : Z) (a : action) (t_rec : Z)
    (run_id : option Z) (ok : bool) : tstate * log * result unit :=
  set_status st l name a t_rec t_rec run_id ok.

(** core/task.py:1262-1275 _get_last_action_from_log *)
Definition last_from_log (l : log) (name : Z) (a : action) : option Z :=
  option_map r_created (get_latest l name [a]).
(** core/task.py:1244-1260 _get_last_action ([force] is config.force_status_from_logs) *)
Definition get_last (force : bool) (st : tstate) (l : log) (name : Z) (a : action) : option Z :=
  if force then last_from_log l name a else ts_last st a.
(** core/task.py:1130-1146 get_status *)
Definition get_status (force : bool) (st : tstate) (l : log) (name : Z) : option action :=
  if force then option_map r_action (get_latest_any l name) else ts_status st.

(** * TaskStatusMixin *)

(** conditions/task/utils.py:66-101: occurred_on_period and cannot_have_occurred
    from the cached times.  (A single action, lines 71-74.) *)
Definition occurred_single (last : option Z) (s e : Z) : bool :=
  match last with Some t => (s <=? t) && (t <=? e) | None => false end.
Definition cannot_single (last : option Z) (s : Z) : bool :=
  match last with Some t => t <? s | None => true end.
(** Several actions, lines 77-87: (occurred, cannot). *)
Fixpoint scan_actions (last : action -> option Z) (s e : Z) (acts : list action) (cannot : bool) : bool * bool :=
  match acts with
  | [] => (false, cannot)
  | a :: acts =>
      match last a with
      | None => scan_actions last s e acts cannot
      | Some t =>
          if (s <=? t) && (t <=? e) then (true, false)
          else if s <=? t then scan_actions last s e acts false
          else scan_actions last s e acts cannot
      end
  end.

Inductive watched : Type := WOne (a : action) | WMany (acts : list action).
Definition watched_list (w : watched) : list action :=
  match w with WOne a => [a] | WMany acts => acts end.

(** utils.py:104-111: the records of the log *)
Definition measure_log (l : log) (name : Z) (w : watched) (s e : Z) : measurement :=
  MList (map r_created
    (filter_by l name (fun r => (s <=? r_created r) && (r_created r <=? e) && action_in (watched_list w) r))).

(** utils.py:62-111 get_measurement, the span being known.  With
    force_status_from_logs the log is read. *)
Definition get_measurement (force : bool) (c : comps) (st : tstate) (l : log) (name : Z)
    (w : watched) (s e : Z) : measurement :=
  if force then measure_log l name w s e
  else
    let '(occurred, cannot) :=
      match w with
      | WOne a => (occurred_single (ts_last st a) s e, cannot_single (ts_last st a) s)
      | WMany acts => scan_actions (ts_last st) s e acts true
      end in
    if is_equal_zero c && cannot then MBool true
    else if is_equal_zero c && occurred then MBool false
    else if is_any_over_zero c && cannot then MBool false
    else if is_any_over_zero c && occurred then MBool true
    else measure_log l name w s e.

(** observe of a task history condition with a given period *)
Definition status_observe (force : bool) (c : comps) (st : tstate) (l : log) (name : Z)
    (w : watched) (fuel : nat) (p : tperiod) (now : Z) : outcome bool :=
  obind (get_period_span fuel (Some p) now) (fun se =>
    Returns (comparable_observe c (get_measurement force c st l name w (fst se) (snd se)))).

Definition w_started : watched := WOne ARun.          (* task.py:32 *)
Definition w_failed : watched := WOne AFail.          (* task.py:58 *)
Definition w_terminated : watched := WOne ATerminate. (* task.py:84 *)
Definition w_succeeded : watched := WOne ASuccess.    (* task.py:109 *)
Definition w_finished : watched := WMany [ASuccess; AFail; ATerminate]. (* task.py:135 *)
Definition w_inacted : watched := WOne AInaction.     (* task.py:245 *)

(** [a and b], b only evaluated if a is true *)
Definition oand (a : outcome bool) (b : outcome bool) : outcome bool :=
  obind a (fun x => if x then b else Returns false).

(** IsPeriod(period).observe, conditions/time.py:36-38; TimeDelta counts as in
    the period (task.py:296-303, 352-356).  TimeSpanDelta is no TimeDelta. *)
Definition is_in_period (fuel : nat) (p : tperiod) (now : Z) : outcome bool :=
  match p with
  | PDelta _ _ _ => Returns true
  | _ => pcontains fuel p now
  end.

(** conditions/task/task.py:285-311 TaskExecutable.get_state *)
Definition executable (force : bool) (st : tstate) (l : log) (name : Z)
    (retries : option Z) (fuel : nat) (p : tperiod) (now : Z) : outcome bool :=
  let retries := match retries with None => 0 | Some n => n end in
  let obs c w := status_observe force c st l name w fuel p now in
  oand (is_in_period fuel p now)
  (oand (obs [(OpEq, BInt 0)] w_inacted)
  (oand (obs [(OpEq, BInt 0)] w_succeeded)
  (oand (obs [(OpLe, BInt retries)] w_failed)
        (obs [(OpEq, BInt 0)] w_terminated)))).

(** conditions/task/task.py:346-361 TaskRunnable.get_state *)
Definition runnable (force : bool) (st : tstate) (l : log) (name : Z)
    (fuel : nat) (p : tperiod) (now : Z) : outcome bool :=
  oand (is_in_period fuel p now)
       (status_observe force [(OpEq, BInt 0)] st l name w_started fuel p now).

(** conditions/api.py every(past, based="run"|"success"|"fail"): the task has
    no such record in the window. *)
Definition every_based (force : bool) (st : tstate) (l : log) (name : Z) (w : watched)
    (fuel : nat) (past : Z) (now : Z) : outcome bool :=
  status_observe force [(OpEq, BInt 0)] st l name w fuel (mk_delta (Some past) None None) now.

(** * Dependencies: conditions/task/utils.py:36-51 *)
Definition depend_state (l : log) (actual dep : Z) (acts : list action) : bool :=
  match get_latest l dep acts with
  | None => false
  | Some d => match get_latest l actual [ARun] with
              | None => true
              | Some r => r_created r <? r_created d
              end
  end.
Definition dep_finish : list action := [ASuccess; AFail].   (* task.py:389 *)
Definition dep_success : list action := [ASuccess].         (* task.py:418 *)
Definition dep_failure : list action := [AFail].            (* task.py:446 *)

(** * Retry: conditions/task/task.py:459-483 *)

(** Log times count from 1970; here 0 is the year 1. *)
Definition unix_epoch : Z := 62135596800000000.
Definition retry_n (n : option Z) : Z := match n with None => -1 | Some n => n end.
Definition retry_state (n : Z) (force : bool) (st : tstate) (l : log) (name : Z) : bool :=
  if n =? 0 then false
  else if negb (match get_status force st l name with Some AFail => true | _ => false end) then false
  else if n =? -1 then true
  else
    let since := match get_latest l name [ASuccess; ACrash; AInaction; ATerminate] with
                 | None => unix_epoch
                 | Some r => r_created r
                 end in
    Z.of_nat (length (filter_by l name (fun r => (since <=? r_created r) && action_in [AFail] r))) <=? n.

(** * What the session does on start: core/task.py:916-942 set_cached *)

(** The six cached times are read from the log; the status is the action with
    the largest time, the first of them in this order. *)
Definition cached_order : list action := [ARun; ASuccess; AFail; ATerminate; AInaction; ACrash].
Fixpoint max_action (last : action -> option Z) (acts : list action) (best : option (action * Z)) : option (action * Z) :=
  match acts with
  | [] => best
  | a :: acts =>
      match last a with
      | None => max_action last acts best
      | Some t => max_action last acts
                    (match best with
                     | None => Some (a, t)
                     | Some (_, u) => if u <? t then Some (a, t) else best
                     end)
      end
  end.
(** [t_now], [t_rec] are the clock readings for the crash record, if one is made *)
Definition set_cached (st : tstate) (l : log) (name : Z) (t_now t_rec : Z) (ok : bool)
    : tstate * log * result unit :=
  let last a := last_from_log l name a in
  let st := TState last (ts_status st) in
  match max_action last cached_order None with
  | None => (st, l, Ok tt)
  | Some (ARun, _) => set_status st l name ACrash t_now t_rec None ok
  | Some (a, _) => (TState last (Some a), l, Ok tt)
  end.
