(** Model of what goes to and comes from a child process that is started afresh
    (multiprocessing's start method "spawn", the default on Windows and macOS):
    rocketry/core/parameters/parameters.py 173-185, rocketry/core/utils/pickle.py,
    rocketry/core/task.py 475-543, 707-783, 1277-1336, rocketry/session.py 526-547,
    rocketry/core/schedule.py 255-287.  With "fork" nothing is pickled on the way
    there and [run_kwargs] of Model.Params applies; what comes back is pickled
    with both.

    Whether a value can be pickled is up to the value: an oracle. *)
From Verif Require Import Model.Base Model.World Model.Params Model.Condition Model.History.
Open Scope Z_scope.

(** * Arguments *)

(** core/parameters/parameters.py:174-185 __getstate__, core/utils/pickle.py:4-10:
    entries that cannot be pickled are left out *)
Definition crossed (pick : param -> bool) (d : dict param) : dict param :=
  filter (fun kp => pick (snd kp)) d.

(** session.py:526-547 (called by core/task.py:1312): in the child the session has
    no tasks and its parameters are None.  ([ss_params] is not read below.) *)
Definition child_session (s : sess) : sess :=
  Sess [] [] (ss_returns s) (ss_environ s) (ss_argv s) (ss_pre s) (ss_exec s) (ss_call s) (ss_event s).

(** get_value in the child: args/builtin.py:52-61 asks None for _get *)
Fixpoint child_value (n : nat) (s : sess) (cx : ctx) (a : arg) : result value :=
  match n with
  | O => Err RecursionError
  | S n =>
      match a with
      | ArgKey _ _ => Err AttributeError
      | FuncArg f sig _ =>
          let* kw := materialize_args (fun a => child_value n s (get_kwargs cx a) a) sig in
          ss_call s f kw
      | PipeArg l => first_value (child_value n s cx) l
      | a => get_value (S n) (child_session s) cx a
      end
  end.

(** core/parameters/parameters.py:100-112 materialize, in the child *)
Definition child_param (n : nat) (s : sess) (cx : ctx) (p : param) : result value :=
  match p with PVal v => Ok v | PArg a => child_value n s (get_kwargs cx a) a end.
Fixpoint child_materialize (n : nat) (s : sess) (cx : ctx) (d : dict param) : result (dict value) :=
  match d with
  | [] => Ok []
  | (k, p) :: d =>
      let* v := child_param n s cx p in let* vs := child_materialize n s cx d in Ok ((k, v) :: vs)
  end.

(** core/task.py:482-483, 707-713 in the parent, 592-595 in the child.  [s]: the
    session at the start, [s']: its environment, functions ... in the child *)
Definition spawn_kwargs (n : nat) (pick : param -> bool) (s s' : sess) (t : ptask) (passed : dict param)
  : result (dict value) :=
  let* params := get_extra_params n s t XProcess VNone passed in
  let cx := Ctx (Some (pt_name t)) SGiven None in
  let* params := pre_materialize n s cx params in
  let* direct := pre_materialize n s cx (direct_params t) in
  child_materialize n s' cx
    (params_or (parameters (postfilter t (crossed pick params))) (parameters (crossed pick direct))).

(** * The task itself *)

(** core/task.py:1277-1332 Task.__getstate__, which tries to pickle its own state
    first (1315).  The state has the session (1312), the session its returns, and
    their keys are the tasks themselves (1336): [fin], those whose value can be
    pickled.  [ok]: the rest of a task's state can be pickled; [mark]: its
    _mark_running is set (core/task.py:734).  [n] is how deep Python may still
    recurse.  The answer: whether a state is returned (rather than something
    raised), and how many times __getstate__ was called.  (The attempts of line
    1322 to name the culprit are left out.) *)
Fixpoint getstate (n : nat) (fin : list Z) (ok mark : Z -> bool) (x : Z) : bool * Z :=
  match n with
  | O => (false, 1)
  | S n =>
      let keys := fix keys (ys : list Z) : bool * Z :=
        match ys with
        | [] => (true, 0)
        | y :: ys =>
            let '(b, c) := getstate n fin ok mark y in
            if b && ok y
            then let '(b', c') := keys ys in (b', c + c')
            else (false, c)
        end in
      let '(b, c) := keys fin in
      ((b && ok x) || negb (mark x), 1 + c)
  end.

(** * The start *)

(** Can the task and what else is handed over (configuration, hooks, queue:
    core/task.py:720-729) be pickled? *)
Record cargo : Type := Cargo { cg_task : bool; cg_rest : bool }.

(** core/task.py:736 process.start(), with the handlers of 526-537.  A task that
    cannot be pickled logs a run and, by the logger itself, a failure (1323-1324:
    the status stays), then raises.  [Ok tt]: the process is started.  (The
    handlers of the log accept the records; one clock reading.) *)
Definition start_spawned (g : cargo) (st : tstate) (l : log) (name : Z) (t : Z) (run_id : Z)
  : tstate * log * result unit :=
  let handler st l :=
    let '(st, l) :=
      if match ts_status st with Some ARun => true | _ => false end
      then (st, l)
      else fst (set_status st l name ARun t t (Some run_id) true) in
    let '(st, l) := fst (set_status st l name AFail t t (Some run_id) true) in
    (st, l, Err TaskSetupError) in
  if cg_task g
  then if cg_rest g then (st, l, Ok tt) else handler st l
  else
    let '(st, l) := fst (set_status st l name ARun t t None true) in
    handler st (l ++ [Rec name AFail t None]).

(** * What comes back *)

(** What a child puts in the queue: a record of a run or failure, or of a success
    with the return value (core/task.py:1170-1175) *)
Inductive message : Type :=
| MPlain (a : action) (t : Z) (run_id : Z)
| MSuccess (t : Z) (run_id : Z) (v : value).

(** multiprocessing.Queue: a thread of the child pickles what was put; what cannot
    be pickled is dropped with a traceback on stderr *)
Definition arrives (pick : param -> bool) (m : message) : bool :=
  match m with MPlain _ _ _ => true | MSuccess _ _ v => pick (PVal v) end.

(** core/task.py:1039-1072, core/schedule.py:255-287: the records that arrive are
    logged, and the return value of a success stored.  (The handlers of the log
    accept the records.) *)
Definition receive (name : Z) (w : tstate * log * dict value) (m : message) : tstate * log * dict value :=
  let '(st, l, rets) := w in
  match m with
  | MPlain a t run_id => (fst (log_record st l name a t (Some run_id) true), rets)
  | MSuccess t run_id v => (fst (log_record st l name ASuccess t (Some run_id) true), dset name v rets)
  end.
Definition receive_all (pick : param -> bool) (name : Z) (w : tstate * log * dict value) (ms : list message)
  : tstate * log * dict value :=
  fold_left (receive name) (filter (arrives pick) ms) w.
