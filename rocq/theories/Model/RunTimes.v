(** Model of the times on the records of a task: rocketry/core/task.py:479,
    666-675, 681, 772, 1024-1037, 1104-1128, 1148-1194, 1242-1275, 927 and
    rocketry/log/log_record.py:39-64 with pybox/time/convert.py:57-65, 216-222.

    One task.  Time is in microseconds (in the code: seconds, a float).  What
    happens comes as a list of steps, in any order: which runs there are and
    when they come to which step is not said here (World has that).  A step that
    writes a record is one step here, though other threads can act between the
    reading of the clock, the writing and the noting of the time. *)
From Coq Require Import ZArith List Bool QArith.
From Verif Require Import Model.Base Model.Duration.
Import ListNotations.
Open Scope Z_scope.

(** What a record holds.  [tr_run] is which run it is about (the run_id stands
    for it in the log), none where the code does not pass it (606, 686, 700, 779
    and a crash found at the start of a session, 940). *)
Inductive taction : Type := ARun | ASuccess | AFail | ATerminate | AInaction | ACrash.
Definition is_run (a : taction) : bool := match a with ARun => true | _ => false end.
Record trec : Type := TRec {
  tr_action : taction;
  tr_run : option nat;
  tr_start : option Z;
  tr_end : option Z;
  tr_runtime : option Z;
  tr_created : Z }.

(** Where code runs: in the process of the scheduler, or in the child process of
    a run, which has a copy of the task. *)
Inductive place : Type := Here | Child.

(** _last_run of the task and of the copies in child processes; the start of
    each TaskRun; the log of the task; the queue of the child processes *)
Record times : Type := Times {
  x_here : option Z;
  x_child : nat -> option Z;
  x_made : nat -> Z;
  x_log : list trec;
  x_queue : list trec }.

Inductive step : Type :=
| Make (u : nat) (c : Z)                          (* 479 TaskRun(start=get_time()) *)
| Mark (u : nat) (c : Z)                          (* 673 a thread: self._last_run = get_time() *)
| Begin (u : nat) (p : place) (c c' : Z) (ok : bool)      (* log_running: clock, then clock of the record *)
| Finish (u : nat) (tagged : bool) (p : place) (a : taction) (c c' : Z) (ok : bool)   (* log_success, log_failure, ...; [tagged]: the run is passed *)
| Receive (ok : bool)                             (* log_record of the next record in the queue *)
| Load.                                           (* 927 set_cached: _last_run from the log *)

Section Times.
(** config.force_status_from_logs *)
Context (force : bool).

(** 1263-1275 _get_last_action_from_log("run"): the latest in the repository *)
Definition last_from_log (l : list trec) : option Z :=
  option_map tr_created (hd_error (filter (fun r => is_run (tr_action r)) (rev l))).
Definition upd {A} (f : nat -> A) (u : nat) (v : A) : nat -> A := fun k => if Nat.eqb k u then v else f k.

(** 1148-1175 the record; 1242-1261 _get_last_action: with force_status_from_logs
    from the log, and noted; in a child process the logger cannot be read *)
Definition finish_start (p : place) (u : nat) (x : times) : option Z :=
  match p with
  | Here => if force then last_from_log (x_log x) else x_here x
  | Child => if force then None else x_child x u
  end.
Definition begin_record (u : nat) (c c' : Z) (x : times) : trec := TRec ARun (Some u) (Some (x_made x u)) None None c'.
Definition finish_record (u : nat) (tagged : bool) (p : place) (a : taction) (c c' : Z) (x : times) : trec :=
  let s := finish_start p u x in
  TRec a (if tagged then Some u else None) s (Some c) (option_map (fun s => c - s) s) c'.

Definition do_step (x : times) (s : step) : times :=
  let '(Times here child made log queue) := x in
  match s with
  | Make u c => Times here child (upd made u c) log queue
  | Mark _ c => Times (Some c) child made log queue
  | Begin u Here c c' ok =>                        (* 1180-1194: the time is noted in any case *)
      Times (Some c) child made (if ok then log ++ [begin_record u c c' x] else log) queue
  | Begin u Child c c' ok =>
      Times here (upd child u (Some c)) made log (if ok then queue ++ [begin_record u c c' x] else queue)
  | Finish u tagged Here a c c' ok =>
      Times (if force then finish_start Here u x else here) child made
        (if ok then log ++ [finish_record u tagged Here a c c' x] else log) queue
  | Finish u tagged Child a c c' ok =>
      Times here (if force then upd child u None else child) made log
        (if ok then queue ++ [finish_record u tagged Child a c c' x] else queue)
  | Receive ok =>                                  (* 1104-1128: a start is noted in any case *)
      match queue with
      | [] => x
      | r :: queue =>
          Times (if is_run (tr_action r) then Some (tr_created r) else here) child made
            (if ok then log ++ [r] else log) queue
      end
  | Load => Times (last_from_log log) child made log queue
  end.
Definition do_steps (x : times) (l : list step) : times := fold_left do_step l x.
End Times.

(** A record read from a repository of TaskLogRecord or TaskRunRecord
    (log_record.py:39-64).  start and end are the moments themselves
    (datetime.fromtimestamp of a number of seconds).  runtime, a number of seconds,
    is given to to_timedelta, whose unit is microseconds unless another is asked
    for (convert.py:57-65, 216-222). *)
Record typed : Type := Typed { ty_start : option Z; ty_end : option Z; ty_runtime : option (outcome Z) }.
Definition seconds (us : Z) : Q := inject_Z us / inject_Z 1000000.
Definition as_typed (r : trec) : typed :=
  Typed (tr_start r) (tr_end r) (option_map (fun us => timedelta (seconds us)) (tr_runtime r)).
