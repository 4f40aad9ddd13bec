(** The state that tasks and scheduler work on, Python statements with
    exceptions over that state, and the moves of everything that runs
    concurrently with the scheduler (the event loop's other coroutines, task
    threads, child processes, the user's code).

    The scheduler's code is not atomic: [env] is called between its
    statements and at its await points, and applies any list of moves.  What
    the outside decides (condition values, failing log writes, run ids, task
    bodies, ...) is read from an [oracle], a function of the number of
    questions asked so far (for start conditions also of the task and the
    state); theorems quantify over all oracles.  Allowing every
    move at every [env] (and not only at await points) is a superset of what
    can happen. *)
From Verif Require Import Model.Base Model.History.
Open Scope Z_scope.

(** core/task.py:198 the execution methods *)
Inductive exec : Type := XMain | XAsync | XThread | XProcess.
Definition exec_eqb (x y : exec) : bool :=
  match x, y with
  | XMain, XMain | XAsync, XAsync | XThread, XThread | XProcess, XProcess => true
  | _, _ => false
  end.

(** Parameters of a manual run request: keys and values *)
Definition params : Type := list (Z * Z).

(** How far the code of a run has come.  [Pending]: its coroutine is scheduled
    on the event loop but has not begun; [Busy]: executing; [Over e]: ended,
    with the exception that left the coroutine, if any. *)
Inductive phase : Type := Pending | Busy | Over (e : option exn).

(** core/task.py:47-57 TaskRun.  [rn_uid] is the object's identity and
    [rn_kind] which of None, asyncio.Task, Thread or Process its [task]
    attribute is.  [rn_stop] is event_terminate. *)
Record run : Type := Run {
  rn_uid : nat;
  rn_id : option Z;
  rn_start : Z;
  rn_kind : exec;
  rn_phase : phase;
  rn_exc : bool;
  rn_stop : bool }.

(** Settings of a task (core/task.py:189-225).  [tc_always_false]: its
    start_cond is an AlwaysFalse, as when none was given. *)
Record tcfg : Type := TCfg {
  tc_name : Z;
  tc_exec : option exec;
  tc_multi : option bool;
  tc_priority : Z;
  tc_startup : bool;
  tc_shutdown : bool;
  tc_permanent : bool;
  tc_timeout : option Z;
  tc_always_false : bool }.

(** What changes in a task: cached status, batches, disabled,
    force_termination, force_run, _run_stack *)
Record task : Type := Task {
  t_cfg : tcfg;
  t_state : tstate;
  t_batches : list params;
  t_disabled : bool;
  t_term : bool;
  t_stack : list run }.
Definition t_name (t : task) : Z := tc_name (t_cfg t).

(** session.py:42-72 the settings that matter here *)
Record config : Type := Config {
  cf_exec : exec;
  cf_multi : bool;
  cf_max_process : Z;
  cf_timeout : Z;
  cf_instant : bool;
  cf_silence_prerun : bool;
  cf_silence_logging : bool;
  cf_silence_cond : bool }.

(** config.shut_cond: [ShutUser] is an arbitrary condition, [ShutCycles n] is
    SchedulerCycles() >= n (session.py:304) *)
Inductive shut_cond : Type := ShutUser | ShutCycles (n : nat).

(** A record sent by a child process; the return value travels with a success
    record (core/task.py:1166-1171). *)
Record qrec : Type := QRec { q_rec : record; q_return : option Z }.

(** What an observer sees.  [EvState] is the tasks' state after a change. *)
Inductive event : Type :=
| EvState (ts : list task)
| EvStart (name : Z) (uid : nat)
| EvTake (name : Z) (p : option params)
| EvRequest (name : Z) (p : params)
| EvTerminate (name : Z) (uid : nat)
| EvConsider (name : Z) (held : bool)
| EvCycle
| EvStartup
| EvStarted
| EvShutdown.

Record world : Type := World {
  w_clock : Z;
  w_log : log;
  w_tasks : list task;
  w_queue : list qrec;
  w_returns : list (Z * Z);
  w_orphans : list (Z * run);
  w_enabled : bool;
  w_shutdown : bool;
  w_restart : bool;
  w_force : bool;
  w_shut : shut_cond;
  w_cycles : nat;
  w_uid : nat;
  w_tick : nat;
  w_trace : list event }.

(** What the user's code does in a run.  [s_setup]: hooks before the run,
    postfilter_params, materialize (core/task.py:581-595); [s_exec]: execute
    and process_success (597-606); [s_success]: process_success in the
    restart branch (611); [s_failure]: process_failure (634); [s_return]:
    _handle_return (647); [s_finish]: process_finish (655); [s_post]: hooks
    after the run (656).  [None] is a normal return.  Exceptions outside
    [Exception], other than CancelledError, are not modelled (asyncio lets them
    end the event loop). *)
Record script : Type := Script {
  s_setup : option exn;
  s_exec : option exn;
  s_value : Z;
  s_success : option exn;
  s_failure : option exn;
  s_return : option exn;
  s_finish : option exn;
  s_post : option exn }.

(** Moves of the outside. *)
Inductive move : Type :=
| MClock (t : Z)
| MRequest (name : Z) (p : params)       (* task.run(...) *)
| MTerminate (name : Z)                  (* task.terminate() *)
| MDisable (name : Z) (b : bool)         (* task.disabled = b *)
| MHold (b : bool)                       (* scheduler.on_hold = b *)
| MShutdown (force : option bool)        (* session.shut_down(force) *)
| MRestart                               (* session.restart() *)
| MEnter (uid : nat) (s : script)        (* a pending coroutine begins *)
| MLeave (uid : nat) (s : script)        (* a coroutine's execute returns or raises *)
| MOrphan (s : script)                   (* a coroutine nobody awaits runs *)
| MThread (uid : nat) (s : script)       (* a task thread runs to its end *)
| MProcess (uid : nat) (s : script)      (* a child process runs to its end *)
| MKilled (uid : nat).                   (* a child process dies by itself *)

Record oracle : Type := Oracle {
  o_env : nat -> list move;
  o_cond : nat -> Z -> world -> result bool; (* start_cond.observe of the named task, which may look at anything *)
  o_end : nat -> result bool;            (* end_cond.observe *)
  o_shut : nat -> result bool;           (* shut_cond.observe *)
  o_write : nat -> bool;                 (* do the log handlers accept the record *)
  o_prep : nat -> option exn;            (* building the parameters *)
  o_spawn : nat -> option exn;           (* starting the thread or process *)
  o_boot : nat -> bool;                  (* does the child process reach its run record *)
  o_run_id : nat -> result Z;            (* func_run_id *)
  o_script : nat -> script;
  o_hook : nat -> option exn }.          (* scheduler hooks *)

(** * Python statements *)
Definition M (A : Type) : Type := world -> world * outcome A.
Definition ret {A} (a : A) : M A := fun w => (w, Returns a).
Definition raise {A} (e : exn) : M A := fun w => (w, Raises e).
Definition mbind {A B} (m : M A) (f : A -> M B) : M B := fun w =>
  match m w with
  | (w', Returns a) => f a w'
  | (w', Raises e) => (w', Raises e)
  | (w', OutOfFuel) => (w', OutOfFuel)
  end.
Notation "x <- m ;; k" := (mbind m (fun x => k))
  (at level 100, m at next level, right associativity).
Notation "m ;; k" := (mbind m (fun _ => k)) (at level 100, right associativity).
(** The outcome of a block whose exception is looked at *)
Definition attempt {A} (m : M A) : M (result A) := fun w =>
  match m w with
  | (w', Returns a) => (w', Returns (Ok a))
  | (w', Raises e) => (w', Returns (Err e))
  | (w', OutOfFuel) => (w', OutOfFuel)
  end.
(** try: m finally: f *)
Definition finally {A} (m : M A) (f : M unit) : M A :=
  (r <- attempt m ;; f ;; match r with Ok a => ret a | Err e => raise e end).
Definition raise_if (e : option exn) : M unit :=
  match e with Some e => raise e | None => ret tt end.
(** isinstance(e, Exception): CancelledError is a BaseException *)
Definition is_exception (e : exn) : bool := match e with CancelledError => false | _ => true end.

Definition get {A} (f : world -> A) : M A := fun w => (w, Returns (f w)).
Definition modify (f : world -> world) : M unit := fun w => (f w, Returns tt).
Definition ask {A} (f : nat -> A) : M A := fun w =>
  (World (w_clock w) (w_log w) (w_tasks w) (w_queue w) (w_returns w) (w_orphans w) (w_enabled w)
     (w_shutdown w) (w_restart w) (w_force w) (w_shut w) (w_cycles w) (w_uid w) (S (w_tick w)) (w_trace w),
   Returns (f (w_tick w))).

(** * Updates of single components *)
Definition set_clock (t : Z) (w : world) : world :=
  World t (w_log w) (w_tasks w) (w_queue w) (w_returns w) (w_orphans w) (w_enabled w)
    (w_shutdown w) (w_restart w) (w_force w) (w_shut w) (w_cycles w) (w_uid w) (w_tick w) (w_trace w).
Definition set_log (l : log) (w : world) : world :=
  World (w_clock w) l (w_tasks w) (w_queue w) (w_returns w) (w_orphans w) (w_enabled w)
    (w_shutdown w) (w_restart w) (w_force w) (w_shut w) (w_cycles w) (w_uid w) (w_tick w) (w_trace w).
Definition set_tasks (ts : list task) (w : world) : world :=
  World (w_clock w) (w_log w) ts (w_queue w) (w_returns w) (w_orphans w) (w_enabled w)
    (w_shutdown w) (w_restart w) (w_force w) (w_shut w) (w_cycles w) (w_uid w) (w_tick w)
    (EvState ts :: w_trace w).
Definition set_queue (q : list qrec) (w : world) : world :=
  World (w_clock w) (w_log w) (w_tasks w) q (w_returns w) (w_orphans w) (w_enabled w)
    (w_shutdown w) (w_restart w) (w_force w) (w_shut w) (w_cycles w) (w_uid w) (w_tick w) (w_trace w).
Definition set_returns (r : list (Z * Z)) (w : world) : world :=
  World (w_clock w) (w_log w) (w_tasks w) (w_queue w) r (w_orphans w) (w_enabled w)
    (w_shutdown w) (w_restart w) (w_force w) (w_shut w) (w_cycles w) (w_uid w) (w_tick w) (w_trace w).
Definition set_orphans (o : list (Z * run)) (w : world) : world :=
  World (w_clock w) (w_log w) (w_tasks w) (w_queue w) (w_returns w) o (w_enabled w)
    (w_shutdown w) (w_restart w) (w_force w) (w_shut w) (w_cycles w) (w_uid w) (w_tick w) (w_trace w).
Definition set_flags (enabled shutdown restart force : bool) (w : world) : world :=
  World (w_clock w) (w_log w) (w_tasks w) (w_queue w) (w_returns w) (w_orphans w) enabled
    shutdown restart force (w_shut w) (w_cycles w) (w_uid w) (w_tick w) (w_trace w).
Definition set_shut (c : shut_cond) (w : world) : world :=
  World (w_clock w) (w_log w) (w_tasks w) (w_queue w) (w_returns w) (w_orphans w) (w_enabled w)
    (w_shutdown w) (w_restart w) (w_force w) c (w_cycles w) (w_uid w) (w_tick w) (w_trace w).
Definition set_cycles (n : nat) (w : world) : world :=
  World (w_clock w) (w_log w) (w_tasks w) (w_queue w) (w_returns w) (w_orphans w) (w_enabled w)
    (w_shutdown w) (w_restart w) (w_force w) (w_shut w) n (w_uid w) (w_tick w) (w_trace w).
Definition set_uid (n : nat) (w : world) : world :=
  World (w_clock w) (w_log w) (w_tasks w) (w_queue w) (w_returns w) (w_orphans w) (w_enabled w)
    (w_shutdown w) (w_restart w) (w_force w) (w_shut w) (w_cycles w) n (w_tick w) (w_trace w).
Definition emit (e : event) (w : world) : world :=
  World (w_clock w) (w_log w) (w_tasks w) (w_queue w) (w_returns w) (w_orphans w) (w_enabled w)
    (w_shutdown w) (w_restart w) (w_force w) (w_shut w) (w_cycles w) (w_uid w) (w_tick w) (e :: w_trace w).

Definition with_state (s : tstate) (t : task) : task :=
  Task (t_cfg t) s (t_batches t) (t_disabled t) (t_term t) (t_stack t).
Definition with_batches (b : list params) (t : task) : task :=
  Task (t_cfg t) (t_state t) b (t_disabled t) (t_term t) (t_stack t).
Definition with_disabled (b : bool) (t : task) : task :=
  Task (t_cfg t) (t_state t) (t_batches t) b (t_term t) (t_stack t).
Definition with_term (b : bool) (t : task) : task :=
  Task (t_cfg t) (t_state t) (t_batches t) (t_disabled t) b (t_stack t).
Definition with_stack (s : list run) (t : task) : task :=
  Task (t_cfg t) (t_state t) (t_batches t) (t_disabled t) (t_term t) s.
Definition with_phase (p : phase) (r : run) : run :=
  Run (rn_uid r) (rn_id r) (rn_start r) (rn_kind r) p (rn_exc r) (rn_stop r).
Definition with_exc (b : bool) (r : run) : run :=
  Run (rn_uid r) (rn_id r) (rn_start r) (rn_kind r) (rn_phase r) b (rn_stop r).
Definition with_stop (b : bool) (r : run) : run :=
  Run (rn_uid r) (rn_id r) (rn_start r) (rn_kind r) (rn_phase r) (rn_exc r) b.

(** Change the task(s) of the given name *)
Definition on_task (name : Z) (f : task -> task) (w : world) : world :=
  set_tasks (map (fun t => if t_name t =? name then f t else t) (w_tasks w)) w.
Definition find_task (name : Z) (w : world) : option task :=
  find (fun t => t_name t =? name) (w_tasks w).
(** session.py:227-233 __getitem__ *)
Definition get_task (name : Z) : M task := fun w =>
  match find_task name w with Some t => (w, Returns t) | None => (w, Raises KeyError) end.
(** Change the run object of the given identity, wherever it is tracked *)
Definition on_stack (uid : nat) (f : run -> run) (l : list run) : list run :=
  map (fun r => if Nat.eqb (rn_uid r) uid then f r else r) l.
Definition on_run (uid : nat) (f : run -> run) (w : world) : world :=
  set_tasks (map (fun t => with_stack (on_stack uid f (t_stack t)) t) (w_tasks w)) w.
Definition task_of_run (uid : nat) (w : world) : option task :=
  find (fun t => existsb (fun r => Nat.eqb (rn_uid r) uid) (t_stack t)) (w_tasks w).
Definition find_run (uid : nat) (w : world) : option (task * run) :=
  match task_of_run uid w with
  | Some t => option_map (fun r => (t, r)) (find (fun r => Nat.eqb (rn_uid r) uid) (t_stack t))
  | None => None
  end.

(** core/task.py:59-64 TaskRun.is_alive *)
Definition run_alive (r : run) : bool :=
  match rn_phase r with Over _ => false | _ => true end.
(** core/task.py:429-435, 437-443 is_alive and n_alive; 967-970
    count_processes_taken *)
Definition is_alive (t : task) : bool := existsb run_alive (t_stack t).
Definition n_alive (t : task) : nat := length (filter run_alive (t_stack t)).
Definition live_process (r : run) : bool := exec_eqb (rn_kind r) XProcess && run_alive r.
Definition count_processes_taken (t : task) : nat := length (filter live_process (t_stack t)).
