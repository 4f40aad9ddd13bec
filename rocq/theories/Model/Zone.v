(** Clocks that are put forward and back: how moments become datetimes and
    datetimes become log times again, and what the history conditions make of
    it.  rocketry/session.py:600-618, rocketry/pybox/time/convert.py,
    rocketry/core/time/{utils,base,anchor}.py, rocketry/conditions/task/utils.py
    and task.py; of Python's library, datetime.fromtimestamp and
    datetime.timestamp.

    Moments are microseconds of absolute (UTC) time, as the clock and the log
    have them; datetimes show the time of day where the scheduler runs.  The
    other models have one time for both, which is right for a zone that never
    changes its offset. *)
From Verif Require Import Model.Base Model.Interval Model.Calendar Model.Anchored Model.Period
  Model.Condition Model.History.
Open Scope Z_scope.

(** The zone, config.timezone or that of the machine (session.py:76): how far
    the clock on the wall is ahead of UTC at a moment. *)
Definition zone : Type := Z -> Z.
Definition wall (z : zone) (t : Z) : Z := t + z t.

(** A datetime: what the clock shows, and datetime.fold, which tells the second
    of two moments showing the same. *)
Record dtime : Type := At { d_wall : Z; d_fold : bool }.

(** Python looks a day around for changes of the offset (max_fold_seconds). *)
Definition look : Z := us_day.

(** session.py:615-618 _get_datetime_now, _format_timestamp:
    datetime.fromtimestamp (CPython Lib/datetime.py, _fromtimestamp).  Written
    there in seconds with the fraction put back; offsets being whole seconds
    that is the same.  zoneinfo's zones do as this does. *)
Definition stamp (z : zone) (t : Z) : dtime :=
  let trans := z t - z (t - look) in
  At (wall z t) (if trans <? 0 then wall z (t + trans) =? wall z t else false).

(** convert.py:33-36 to_timestamp: datetime.timestamp (CPython
    Lib/datetime.py, _mktime) *)
Definition absolute (z : zone) (d : dtime) : Z :=
  let w := d_wall d in
  let a := z w in
  let u1 := w - a in
  let t1 := wall z u1 in
  if t1 =? w then
    let b := z (u1 + (if d_fold d then look else - look)) in
    if a =? b then u1
    else let u2 := w - b in if wall z u2 =? w then u2 else u1
  else
    let u2 := w - (t1 - u1) in
    if wall z u2 =? w then u2
    else if d_fold d then Z.min u1 u2 else Z.max u1 u2.

(** Adding to a datetime or taking from it is done on what the clock shows, and
    gives fold = 0. *)
Definition shifted (w : Z) : dtime := At w false.

(** The periods looked at here. *)
Inductive zperiod : Type := ZDelta (past : Z) | ZAnch (p : anchored).

(** core/time/utils.py:8-30 get_period_span with base.py:232-237
    TimeDelta.rollback and base.py:153-176 TimeInterval.rollback: the end is the
    present datetime itself where the period is on (anchor.py:230-234 rollend)
    and is otherwise, like the start, computed from it. *)
Definition zspan (fuel : nat) (p : zperiod) (now : dtime) : outcome (dtime * dtime) :=
  match p with
  | ZDelta past => Returns (shifted (d_wall now - Z.abs past), now)
  | ZAnch a =>
      obind (get_period_span fuel (Some (PAnch a)) (d_wall now)) (fun se =>
        Returns (shifted (fst se), if acontains a (d_wall now) then now else shifted (snd se)))
  end.

(** core/task.py:1197-1237: task.last_success and the like are datetimes, made
    of the cached log times. *)
Definition shown (z : zone) (st : tstate) : tstate :=
  TState (fun a => option_map (wall z) (ts_last st a)) (ts_status st).

(** conditions/task/utils.py:62-111 get_measurement, the span being known: the
    cached times are compared with it by what the clock shows (datetimes of one
    zone are), the log by moments. *)
Definition zmeasurement (z : zone) (force : bool) (c : comps) (st : tstate) (l : log) (name : Z)
    (w : watched) (s e : dtime) : measurement :=
  let from_log := measure_log l name w (absolute z s) (absolute z e) in
  if force then from_log
  else
    let st := shown z st in
    let '(occurred, cannot) :=
      match w with
      | WOne a => (occurred_single (ts_last st a) (d_wall s) (d_wall e), cannot_single (ts_last st a) (d_wall s))
      | WMany acts => scan_actions (ts_last st) (d_wall s) (d_wall e) acts true
      end in
    if is_equal_zero c && cannot then MBool true
    else if is_equal_zero c && occurred then MBool false
    else if is_any_over_zero c && cannot then MBool false
    else if is_any_over_zero c && occurred then MBool true
    else from_log.

(** observe of a task history condition at moment [t] *)
Definition zstatus (z : zone) (force : bool) (c : comps) (st : tstate) (l : log) (name : Z)
    (w : watched) (fuel : nat) (p : zperiod) (t : Z) : outcome bool :=
  obind (zspan fuel p (stamp z t)) (fun se =>
    Returns (comparable_observe c (zmeasurement z force c st l name w (fst se) (snd se)))).

(** conditions/time.py:36-38 IsPeriod.observe; a TimeDelta counts as on
    (task.py:296-303) *)
Definition zin_period (z : zone) (p : zperiod) (t : Z) : bool :=
  match p with
  | ZDelta _ => true
  | ZAnch a => acontains a (d_wall (stamp z t))
  end.

(** conditions/task/task.py:285-311 TaskExecutable.get_state *)
Definition zexecutable (z : zone) (force : bool) (st : tstate) (l : log) (name : Z)
    (retries : option Z) (fuel : nat) (p : zperiod) (t : Z) : outcome bool :=
  let retries := match retries with None => 0 | Some n => n end in
  let obs c w := zstatus z force c st l name w fuel p t in
  oand (Returns (zin_period z p t))
  (oand (obs [(OpEq, BInt 0)] w_inacted)
  (oand (obs [(OpEq, BInt 0)] w_succeeded)
  (oand (obs [(OpLe, BInt retries)] w_failed)
        (obs [(OpEq, BInt 0)] w_terminated)))).

(** conditions/api.py every(past, based="run"|"success"|"fail") *)
Definition zevery (z : zone) (force : bool) (st : tstate) (l : log) (name : Z) (w : watched)
    (fuel : nat) (past : Z) (t : Z) : outcome bool :=
  zstatus z force [(OpEq, BInt 0)] st l name w fuel (ZDelta past) t.
