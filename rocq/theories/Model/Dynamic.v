(** Model of a session whose tasks are created and removed while the scheduler
    runs: rocketry/core/schedule.py:93-437, rocketry/session.py:227-242,
    381-440, and what rocketry/core/task.py:454-542, 707-739, 901-942,
    1039-1072 do with the session's tasks.

    The scheduler model (Scheduler) has a fixed set of tasks; here the task
    objects are apart from the session's set of them, as the scheduler keeps
    hold of objects that are no longer in the session.  In return the runs are
    coarser: hooks, parameters, manual requests, restarts and failures to write
    the log are left out, and a terminated run is over at once.  Other code runs
    at the points marked [denv] only: a set of tasks changed by another thread
    while it is gone through (a RuntimeError in Python) is not modelled. *)
From Coq Require Import ZArith List Bool.
From Verif Require Import Model.Base Model.History.
Import ListNotations.
Open Scope Z_scope.

(** core/task.py:224, the executions: main, thread (async tasks are like them
    here: they live beside the scheduler and write their records themselves)
    and process *)
Inductive dkind : Type := KMain | KThread | KProcess.

(** core/task.py:47-100 TaskRun: its number and whether it is alive.  The runs
    of main tasks are gone from the stack when start_async returns. *)
Record drun : Type := DRun { dr_uid : nat; dr_alive : bool }.
(** A task object.  Its number is its place in [dw_objs]. *)
Record dobj : Type := DObj {
  do_name : Z; do_kind : dkind; do_prio : Z; do_startup : bool; do_shutdown : bool;
  do_disabled : bool; do_state : tstate; do_runs : list drun }.
(** A record in the queue between the child processes and the scheduler
    (task.name is all that says whose it is; [q_from] is the object that
    started the process). *)
Record qrec : Type := QRec { q_name : Z; q_from : nat; q_action : action; q_time : Z }.

Inductive devent : Type :=
| DPhase                       (* startup, a cycle or the shutdown tasks begin *)
| DConsider (i : nat)          (* a cycle comes to the task *)
| DJudge (i : nat) (st : tstate) (l : log)   (* whether the task is to start is decided, with this in its memory and in the log *)
| DStart (i u : nat) (k : dkind)             (* run [u] of the task starts *)
| DOver (i u : nat)            (* run [u] of the task, a thread or a process, is over *)
| DAdd (i : nat)               (* the task is put to the session *)
| DRemove (i : nat)            (* the task is removed from the session *)
| DNote (i : nat) (q : qrec).  (* a record from the queue is noted on the task *)

Record dworld : Type := DWorld {
  dw_objs : list dobj;
  dw_members : list nat;       (* session.tasks (a set: the order is that of this list) *)
  dw_queue : list qrec;
  dw_log : log;
  dw_clock : Z;
  dw_down : bool;              (* the flag of set_shut_down *)
  dw_cycles : nat;
  dw_uid : nat;
  dw_tick : nat;
  dw_trace : list devent }.

Definition dset_objs x w := DWorld x (dw_members w) (dw_queue w) (dw_log w) (dw_clock w) (dw_down w) (dw_cycles w) (dw_uid w) (dw_tick w) (dw_trace w).
Definition dset_members x w := DWorld (dw_objs w) x (dw_queue w) (dw_log w) (dw_clock w) (dw_down w) (dw_cycles w) (dw_uid w) (dw_tick w) (dw_trace w).
Definition dset_queue x w := DWorld (dw_objs w) (dw_members w) x (dw_log w) (dw_clock w) (dw_down w) (dw_cycles w) (dw_uid w) (dw_tick w) (dw_trace w).
Definition dset_log x w := DWorld (dw_objs w) (dw_members w) (dw_queue w) x (dw_clock w) (dw_down w) (dw_cycles w) (dw_uid w) (dw_tick w) (dw_trace w).
Definition dset_clock x w := DWorld (dw_objs w) (dw_members w) (dw_queue w) (dw_log w) x (dw_down w) (dw_cycles w) (dw_uid w) (dw_tick w) (dw_trace w).
Definition dset_down x w := DWorld (dw_objs w) (dw_members w) (dw_queue w) (dw_log w) (dw_clock w) x (dw_cycles w) (dw_uid w) (dw_tick w) (dw_trace w).
Definition dset_cycles x w := DWorld (dw_objs w) (dw_members w) (dw_queue w) (dw_log w) (dw_clock w) (dw_down w) x (dw_uid w) (dw_tick w) (dw_trace w).
Definition dset_uid x w := DWorld (dw_objs w) (dw_members w) (dw_queue w) (dw_log w) (dw_clock w) (dw_down w) (dw_cycles w) x (dw_tick w) (dw_trace w).
Definition dset_tick x w := DWorld (dw_objs w) (dw_members w) (dw_queue w) (dw_log w) (dw_clock w) (dw_down w) (dw_cycles w) (dw_uid w) x (dw_trace w).
Definition demit e w := DWorld (dw_objs w) (dw_members w) (dw_queue w) (dw_log w) (dw_clock w) (dw_down w) (dw_cycles w) (dw_uid w) (dw_tick w) (dw_trace w ++ [e]).

Definition with_dstate st o := DObj (do_name o) (do_kind o) (do_prio o) (do_startup o) (do_shutdown o) (do_disabled o) st (do_runs o).
Definition with_druns r o := DObj (do_name o) (do_kind o) (do_prio o) (do_startup o) (do_shutdown o) (do_disabled o) (do_state o) r.
Definition with_disabled b o := DObj (do_name o) (do_kind o) (do_prio o) (do_startup o) (do_shutdown o) b (do_state o) (do_runs o).

(** An object that was never made: nothing asks for one *)
Definition no_obj : dobj := DObj 0 KMain 0 false false false fresh_state [].
Definition obj (i : nat) (w : dworld) : dobj := nth i (dw_objs w) no_obj.
Fixpoint dupdate (i : nat) (f : dobj -> dobj) (l : list dobj) : list dobj :=
  match l, i with
  | [], _ => []
  | o :: l, O => f o :: l
  | o :: l, S i => o :: dupdate i f l
  end.
Definition on_obj (i : nat) (f : dobj -> dobj) (w : dworld) : dworld := dset_objs (dupdate i f (dw_objs w)) w.

(** session.py:227-233 __getitem__: the session's task of a name *)
Definition by_name (name : Z) (w : dworld) : option nat :=
  find (fun i => do_name (obj i w) =? name) (dw_members w).

(** core/task.py:429-440 is_alive, 968-970 count_processes_taken *)
Definition dalive (o : dobj) : bool := existsb dr_alive (do_runs o).
Definition is_process (o : dobj) : bool := match do_kind o with KProcess => true | _ => false end.
Definition dtaken (o : dobj) : nat := if is_process o then length (filter dr_alive (do_runs o)) else 0%nat.
(** core/schedule.py:336-337 count_process_tasks_alive, 340-342 n_alive: of the
    session's tasks *)
Definition dcount (w : dworld) : nat := list_sum (map (fun i => dtaken (obj i w)) (dw_members w)).
Definition any_alive (w : dworld) : bool := existsb (fun i => dalive (obj i w)) (dw_members w).

(** core/schedule.py:93-100 tasks: highest priority first, otherwise in order *)
Fixpoint dinsert (w : dworld) (i : nat) (l : list nat) : list nat :=
  match l with
  | [] => [i]
  | j :: l => if do_prio (obj j w) <? do_prio (obj i w) then i :: j :: l else j :: dinsert w i l
  end.
Definition dtasks (w : dworld) : list nat := fold_left (fun l i => dinsert w i l) (dw_members w) [].

(** core/task.py:1148-1195 _set_status on the object, the log accepting it *)
Definition note (i : nat) (a : action) (t : Z) (w : dworld) : dworld :=
  match nth_error (dw_objs w) i with
  | None => w                                                 (* an object that was never made *)
  | Some o =>
      let '(st, l, _) := set_status (do_state o) (dw_log w) (do_name o) a t t None true in
      dset_log l (on_obj i (with_dstate st) w)
  end.

(** * What other code does meanwhile: the tasks' own code, other threads and
    the child processes *)
(** how the code of a run ends: it returns, raises, or raises TaskInactionException *)
Inductive dend : Type := EndOk | EndFail | EndInaction.
Definition end_action (e : dend) : action := match e with EndOk => ASuccess | EndFail => AFail | EndInaction => AInaction end.
Inductive dmove : Type :=
| MvWait (d : Z)
| MvAdd (name : Z) (k : dkind) (prio : Z) (up down : bool)   (* session.create_task(...) *)
| MvReadd (i : nat)                                           (* session.add_task(task) *)
| MvRemove (i : nat)                                          (* session.remove_task(task), task.delete() *)
| MvDisable (i : nat) (b : bool)                              (* task.disabled = b *)
| MvEnd (i : nat) (u : nat) (e : dend)                        (* run [u] of a task ends *)
| MvDown.                                                     (* session.shut_down() *)

(** session.py:402-428 create_task and add_task with task_pre_exist='raise'
    (the default): a name that is in use is refused in the caller's code.
    core/task.py:907-914: a new task has no history; set_cached is called in
    the startup only (core/schedule.py:312-319). *)
Definition dadd (o : dobj) (w : dworld) : dworld :=
  demit (DAdd (length (dw_objs w))) (dset_members (dw_members w ++ [length (dw_objs w)]) (dset_objs (dw_objs w ++ [o]) w)).
Definition end_run (u : nat) (l : list drun) : list drun :=
  map (fun r => if Nat.eqb (dr_uid r) u then DRun u false else r) l.
Definition going (i u : nat) (w : dworld) : bool :=
  existsb (fun r => Nat.eqb (dr_uid r) u && dr_alive r) (do_runs (obj i w)).
Definition do_move (m : dmove) (w : dworld) : dworld :=
  match m with
  | MvWait d => dset_clock (dw_clock w + Z.abs d) w
  | MvAdd name k prio up down =>
      match by_name name w with
      | Some _ => w                                           (* KeyError, session.py:427 *)
      | None => dadd (DObj name k prio up down false fresh_state []) w
      end
  | MvReadd i =>
      if Nat.ltb i (length (dw_objs w)) then
        match by_name (do_name (obj i w)) w with
        | Some _ => w
        | None => demit (DAdd i) (dset_members (dw_members w ++ [i]) w)
        end
      else w
  | MvRemove i =>                                             (* session.py:435-440; a task that is not there: KeyError *)
      if existsb (Nat.eqb i) (dw_members w)
      then demit (DRemove i) (dset_members (filter (fun j => negb (Nat.eqb i j)) (dw_members w)) w)
      else w
  | MvDisable i b => on_obj i (with_disabled b) w
  | MvEnd i u e =>
      if going i u w then
        let w1 := demit (DOver i u) (on_obj i (fun o => with_druns (end_run u (do_runs o)) o) w) in
        if is_process (obj i w)
        then dset_queue (dw_queue w ++ [QRec (do_name (obj i w)) i (end_action e) (dw_clock w)]) w1   (* core/task.py:755-783, by the queue *)
        else note i (end_action e) (dw_clock w) w1
      else w
  | MvDown => dset_down true w
  end.

(** What is not up to the scheduler: how many moves are made at a point and
    which (seeing all there is to see), how the code of a main task ends,
    whether a task is to be terminated at a check, how many records of other
    processes come before the first one of a starting process. *)
Record doracle : Type := DOracle {
  o_count : nat -> nat;
  o_move : nat -> dworld -> dmove;
  o_main : nat -> dend;
  o_stop : nat -> bool;
  o_late : nat -> nat }.
(** session.config, and the start conditions: they see the task (with what it
    has noted of its own history), the log and the clock *)
Record dconfig : Type := DConfig {
  dc_max : nat;                 (* max_process_count *)
  dc_multi : bool;              (* multilaunch *)
  dc_silence : bool;            (* silence_task_prerun *)
  dc_instant : bool;            (* instant_shutdown *)
  dc_cycles : nat;              (* shut_cond: this many cycles *)
  dc_cond : dobj -> log -> Z -> bool }.

(** * Programs *)
Definition D (A : Type) : Type := dworld -> dworld * outcome A.
Definition dret {A} (a : A) : D A := fun w => (w, Returns a).
Definition draise {A} (e : exn) : D A := fun w => (w, Raises e).
Definition dbind {A B} (m : D A) (f : A -> D B) : D B :=
  fun w => match m w with (w, Returns a) => f a w | (w, Raises e) => (w, Raises e) | (w, OutOfFuel) => (w, OutOfFuel) end.
Definition dmod (f : dworld -> dworld) : D unit := fun w => (f w, Returns tt).
Definition dget {A} (f : dworld -> A) : D A := fun w => (w, Returns (f w)).
Definition dattempt {A} (m : D A) : D (result A) :=
  fun w => match m w with (w, Returns a) => (w, Returns (Ok a)) | (w, Raises e) => (w, Returns (Err e)) | (w, OutOfFuel) => (w, OutOfFuel) end.
Notation "x <~ m ;; k" := (dbind m (fun x => k)) (at level 61, m at next level, right associativity).
Notation "m ~> k" := (dbind m (fun _ => k)) (at level 61, right associativity).
Definition dagain {A} (r : result A) : D A := match r with Ok a => dret a | Err e => draise e end.
(** try: m finally: f *)
Definition dfinally (m f : D unit) : D unit := r <~ dattempt m ;; f ~> dagain r.
Fixpoint deach (f : nat -> D unit) (l : list nat) : D unit :=
  match l with [] => dret tt | i :: l => f i ~> deach f l end.

Section Dynamic.
Context (orc : doracle) (cf : dconfig).

Definition next_tick : D nat := k <~ dget dw_tick ;; dmod (dset_tick (S k)) ~> dret k.
Fixpoint dmoves (n : nat) : D unit :=
  match n with
  | O => dret tt
  | S n => (k <~ next_tick ;; dmod (fun w => do_move (o_move orc k w) w)) ~> dmoves n
  end.
(** A point at which other code may run *)
Definition denv : D unit := k <~ next_tick ;; dmoves (o_count orc k).

(** core/schedule.py:255-287 handle_logs: the task of a record is looked up in
    the session by name *)
Fixpoint handle (q : list qrec) : D unit :=
  match q with
  | [] => dret tt
  | r :: q =>
      dmod (dset_queue q) ~>
      i <~ dget (by_name (q_name r)) ;;
      match i with
      | None => draise KeyError
      | Some i => dmod (fun w => demit (DNote i r) (note i (q_action r) (q_time r) w)) ~> handle q
      end
  end.
Definition dhandle_logs : D unit := q <~ dget dw_queue ;; handle q.

(** core/task.py:1039-1072 _lock_to_run_log: records are taken up to the next
    run record.  (Other code runs before the first of them only.) *)
Fixpoint lock (q : list qrec) : D unit :=
  match q with
  | [] => draise TaskSetupError
  | r :: q =>
      dmod (dset_queue q) ~>
      i <~ dget (by_name (q_name r)) ;;
      match i with
      | None => draise KeyError
      | Some i =>
          dmod (fun w => demit (DNote i r) (note i (q_action r) (q_time r) w)) ~>
          if action_eqb (q_action r) ARun then dret tt else lock q
      end
  end.

(** The record that a process runs is the [m]th of the queue; [k] records that
    came after it in fact came first.  (They may be any here, also its own.) *)
Definition late (k m : nat) (q : list qrec) : list qrec :=
  firstn m q ++ firstn k (skipn (S m) q) ++ firstn 1 (skipn m q) ++ skipn k (skipn (S m) q).
(** core/task.py:454-542 start_async, 707-739 run_as_process;
    core/schedule.py:208-224 run_task *)
Definition push_run (i : nat) (w : dworld) : dworld :=
  demit (DStart i (dw_uid w) (do_kind (obj i w))) (dset_uid (S (dw_uid w))
    (match do_kind (obj i w) with
     | KMain => w
     | _ => on_obj i (fun o => with_druns (do_runs o ++ [DRun (dw_uid w) true]) o) w
     end)).
Definition drun_task (i : nat) : D unit :=
  o <~ dget (obj i) ;;
  dmod (push_run i) ~>
  match do_kind o with
  | KMain =>
      dmod (fun w => note i ARun (dw_clock w) w) ~>
      denv ~>                                                 (* the code of the task *)
      k <~ next_tick ;;
      dmod (fun w => note i (end_action (o_main orc k)) (dw_clock w) w)
  | KThread =>
      dmod (fun w => note i ARun (dw_clock w) w)
  | KProcess =>
      m <~ dget (fun w => length (dw_queue w)) ;;
      dmod (fun w => dset_queue (dw_queue w ++ [QRec (do_name o) i ARun (dw_clock w)]) w) ~>
      denv ~>
      k <~ next_tick ;;
      dmod (fun w => dset_queue (late (o_late orc k) m (dw_queue w)) w) ~>
      q <~ dget dw_queue ;;
      r <~ dattempt (lock q) ;;
      match r with
      | Ok _ => dret tt
      | Err e =>                                              (* core/task.py:529-537 *)
          st <~ dget (fun w => ts_status (do_state (obj i w))) ;;
          (match st with Some ARun => dret tt | _ => dmod (fun w => note i ARun (dw_clock w) w) end) ~>
          dmod (fun w => note i AFail (dw_clock w) w) ~>
          if dc_silence cf then dret tt else draise TaskSetupError
      end
  end.

(** core/schedule.py:237-253 is_task_runnable, core/task.py:547-569 is_runnable *)
Definition drunnable (i : nat) (w : dworld) : bool :=
  let o := obj i w in
  (negb (is_process o) || Nat.ltb (dcount w) (dc_max cf)) &&
  (match do_kind o with KMain => true | _ => dc_multi cf || negb (dalive o) end) &&
  negb (do_disabled o) &&
  dc_cond cf o (dw_log w) (dw_clock w).
Definition dguarded (i : nat) : D unit :=
  dmod (fun w => demit (DJudge i (do_state (obj i w)) (dw_log w)) w) ~>
  b <~ dget (drunnable i) ;; if b then drun_task i else dret tt.

(** core/task.py:972-995 _check_termination, core/schedule.py:226-235; every
    live run is ended, with a record of it each *)
Definition kill_run (i : nat) (w : dworld) (r : drun) : dworld :=
  if dr_alive r
  then note i ATerminate (dw_clock w)
         (demit (DOver i (dr_uid r)) (on_obj i (fun o => with_druns (end_run (dr_uid r) (do_runs o)) o) w))
  else w.
Definition kill_all (i : nat) (w : dworld) : dworld := fold_left (kill_run i) (do_runs (obj i w)) w.
Definition dcheck (i : nat) : D unit :=
  k <~ next_tick ;; if o_stop orc k then dmod (kill_all i) else dret tt.

(** core/schedule.py:156-191 run_cycle *)
Definition dturn (i : nat) : D unit :=
  denv ~> dhandle_logs ~>
  o <~ dget (obj i) ;;
  (if do_startup o || do_shutdown o then dret tt
   else dmod (demit (DConsider i)) ~> dguarded i) ~>
  dcheck i.
Definition dcycle : D unit :=
  dmod (demit DPhase) ~>
  ts <~ dget dtasks ;;
  deach dturn ts ~>
  dhandle_logs ~>
  dmod (fun w => dset_cycles (S (dw_cycles w)) w).

(** core/schedule.py:298-329 startup: the history is read from the log, a task
    that was running has crashed (core/task.py:916-942); startup tasks *)
Definition dcached (i : nat) (w : dworld) : dworld :=
  match nth_error (dw_objs w) i with
  | None => w
  | Some o =>
      let '(st, l, _) := set_cached (do_state o) (dw_log w) (do_name o) (dw_clock w) (dw_clock w) true in
      dset_log l (on_obj i (with_dstate st) w)
  end.
Definition dstartup : D unit :=
  dmod (demit DPhase) ~>
  dmod (dset_cycles 0) ~>
  ts <~ dget dtasks ;;
  deach (fun i =>
    denv ~> dmod (dcached i) ~>
    o <~ dget (obj i) ;;
    if do_startup o then dguarded i else dret tt) ts.

(** core/schedule.py:344-354 run_shutdown_tasks, 356-382 _shut_down_tasks,
    384-387 wait_task_alive *)
Definition dlast : D unit :=
  dmod (demit DPhase) ~>
  ts <~ dget dtasks ;;
  deach (fun i => o <~ dget (obj i) ;; if do_shutdown o then dguarded i else dret tt) ts.
Definition dkill : D unit := ts <~ dget dtasks ;; deach (fun i => dmod (kill_all i)) ts.
Fixpoint dwait (fuel : nat) (check : bool) : D unit :=
  match fuel with
  | O => fun w => (w, OutOfFuel)
  | S fuel =>
      b <~ dget any_alive ;;
      if b then
        denv ~>
        (if check then dhandle_logs ~> (ts <~ dget dtasks ;; deach dcheck ts) else dret tt) ~>
        dwait fuel check
      else dret tt
  end.
Definition dend_tasks (fuel : nat) (failed : bool) : D unit :=
  if dc_instant cf || failed then dkill
  else
    r <~ dattempt (dwait fuel true) ;;
    match r with Ok _ => dret tt | Err e => dkill ~> draise e end.
(** core/schedule.py:389-437 shut_down *)
Definition dshut_down (fuel : nat) (failed : bool) : D unit :=
  dfinally (dfinally dlast (dend_tasks fuel failed)) (dwait fuel false ~> dhandle_logs).

(** core/schedule.py:108-154 serve *)
Fixpoint dloop (fuel : nat) : D unit :=
  match fuel with
  | O => fun w => (w, OutOfFuel)
  | S fuel =>
      n <~ dget dw_cycles ;;
      if Nat.leb (dc_cycles cf) n then dret tt
      else
        denv ~>
        down <~ dget dw_down ;;
        if down then dret tt else dcycle ~> dloop fuel
  end.
Definition dserve (fuel : nat) : D unit :=
  dmod (dset_down false) ~>
  r <~ dattempt (dstartup ~> dloop fuel) ;;
  dshut_down fuel (match r with Ok _ => false | Err _ => true end) ~> dagain r.
End Dynamic.
