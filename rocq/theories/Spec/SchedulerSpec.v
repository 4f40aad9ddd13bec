(** Specifications for the scheduler: what can be observed of an execution. *)
From Verif Require Import Model.Base Model.History Model.World Model.Run Model.Scheduler.
Open Scope Z_scope.

(** Task states an observer has seen up to [w]: every state the tasks went
    through is recorded in the trace. *)
Definition observed (w : world) (ts : list task) : Prop :=
  ts = w_tasks w \/ In (EvState ts) (w_trace w).

(** Each name denotes one task (C36). *)
Definition distinct_names (w : world) : Prop := NoDup (map t_name (w_tasks w)).

(** The execution of a task: its own setting or else the session's *)
Definition executes (cf : config) (t : task) (x : exec) : Prop :=
  match tc_exec (t_cfg t) with Some y => x = y | None => x = cf_exec cf end.
Definition multilaunch (cf : config) (t : task) : Prop :=
  match tc_multi (t_cfg t) with Some b => b = true | None => cf_multi cf = true end.

(** Live runs of a task, and live process runs of a list of tasks *)
Definition live (r : run) : bool := match rn_phase r with Over _ => false | _ => true end.
Definition live_runs (t : task) : list run := filter live (t_stack t).
Definition live_process_runs (ts : list task) : list run :=
  filter (fun r => live r && match rn_kind r with XProcess => true | _ => false end) (concat (map t_stack ts)).

(** What happened between two states, oldest event first *)
Definition happened (w w' : world) (evs : list event) : Prop := w_trace w' = rev evs ++ w_trace w.
(** [e1] happened before [e2] *)
Definition earlier (evs : list event) (e1 e2 : event) : Prop :=
  exists l1 l2 l3, evs = l1 ++ e1 :: l2 ++ e2 :: l3.
(** Tasks that take part in cycles *)
Definition cyclic_task (t : task) : Prop :=
  tc_startup (t_cfg t) = false /\ tc_shutdown (t_cfg t) = false.
Definition priority (t : task) : Z := tc_priority (t_cfg t).
(** How often a task was considered *)
Definition considered (n : Z) (evs : list event) : list event :=
  filter (fun e => match e with EvConsider m _ => m =? n | _ => false end) evs.

(** Manual requests made for a task, and parameters its starts took, in order *)
Definition requests (n : Z) (evs : list event) : list params :=
  flat_map (fun e => match e with EvRequest m p => if m =? n then [p] else [] | _ => [] end) evs.
Definition takes (n : Z) (evs : list event) : list params :=
  flat_map (fun e => match e with EvTake m (Some p) => if m =? n then [p] else [] | _ => [] end) evs.
(** Nobody makes the move *)
Definition never (orc : oracle) (m : move) : Prop := forall k, ~ In m (o_env orc k).
(** Decisions of the scheduler about a task: the rest of the trace is states,
    requests and terminations *)
Definition decision (e : event) : Prop :=
  match e with EvStart _ _ | EvTake _ _ | EvConsider _ _ => True | _ => False end.
(** The task has a manual run waiting *)
Definition requested (t : task) : Prop := t_batches t <> [].
(** Another run of the task may begin *)
Definition may_start (cf : config) (t : task) : Prop :=
  executes cf t XMain \/ multilaunch cf t \/ live_runs t = [].
(** A slot for another process is free *)
Definition free_slot (cf : config) (w : world) : Prop :=
  Z.of_nat (length (live_process_runs (w_tasks w))) < cf_max_process cf.
(** How a task is executed when session.run was given the execution [x] *)
Definition runs_as (cf : config) (t : task) (x : option exec) (y : exec) : Prop :=
  match x with Some z => y = z | None => executes cf t y end.
(** No condition was given to the task, so only requests start it *)
Definition no_condition (t : task) : Prop := tc_always_false (t_cfg t) = true.

(** * Termination *)
(** The runs that are tracked, each with an identity of its own *)
Definition tracked (w : world) : list run := concat (map t_stack (w_tasks w)).
Definition distinct_runs (w : world) : Prop := NoDup (map rn_uid (tracked w)).
Definition live_in (w : world) (u : nat) : Prop := exists r, In r (tracked w) /\ rn_uid r = u /\ live r = true.
(** The run is over or, being a thread, was told to stop; threads end
    themselves. *)
Definition stopped (w : world) (u : nat) : Prop := forall r, In r (tracked w) -> rn_uid r = u ->
  live r = false \/ (rn_kind r = XThread /\ rn_stop r = true).
Definition timeout_of (cf : config) (t : task) : Z :=
  match tc_timeout (t_cfg t) with Some d => d | None => cf_timeout cf end.
Definition late (cf : config) (w : world) (t : task) (r : run) : Prop := timeout_of cf t < w_clock w - rn_start r.
(** What the next question about an end condition is answered: it holds (also
    when it fails and such failures are silenced), or its failure is not
    silenced. *)
Definition end_holds (orc : oracle) (cf : config) (w : world) : Prop :=
  o_end orc (w_tick w) = Ok true \/
  exists e, o_end orc (w_tick w) = Err e /\ is_exception e = true /\ cf_silence_cond cf = true.
Definition end_loud (orc : oracle) (cf : config) (w : world) (e : exn) : Prop :=
  o_end orc (w_tick w) = Err e /\ (is_exception e = false \/ cf_silence_cond cf = false).
(** No run was begun yet *)
Definition no_runs (w : world) : Prop := tracked w = [].

(** * Failing start conditions *)
(** The same outside, but start conditions that raise are not satisfied
    instead. *)
Definition hushed (orc : oracle) : oracle :=
  Oracle (o_env orc)
    (fun k n w => match o_cond orc k n w with
              | Ok b => Ok b
              | Err e => if is_exception e then Ok false else Err e
              end)
    (o_end orc) (o_shut orc) (o_write orc) (o_prep orc) (o_spawn orc) (o_boot orc) (o_run_id orc) (o_script orc) (o_hook orc).
(** The same outside, but the [k]-th question, if it is about a start condition,
    is answered by [x]. *)
Definition answering (orc : oracle) (k : nat) (x : result bool) : oracle :=
  Oracle (o_env orc) (fun j n w => if Nat.eqb j k then x else o_cond orc j n w)
    (o_end orc) (o_shut orc) (o_write orc) (o_prep orc) (o_spawn orc) (o_boot orc) (o_run_id orc) (o_script orc) (o_hook orc).

(** * Shutdown *)
(** Task [n] has no reason to be terminated between the times [A] and [B]: nobody
    asks for it, no end condition holds, no second shutdown comes, it is neither
    permanent nor a shutdown task, and its timeout is longer. *)
Definition unhurried (orc : oracle) (cf : config) (A B : Z) (n : Z) (w : world) : Prop :=
  (forall k m, In m (o_env orc k) ->
     match m with MClock t => A <= t <= B | MTerminate m => m <> n | MShutdown _ => False | _ => True end) /\
  (forall k, o_end orc k = Ok false) /\ A <= w_clock w <= B /\ w_force w = false /\
  forall t, In t (w_tasks w) -> t_name t = n ->
    t_term t = false /\ tc_permanent (t_cfg t) = false /\ tc_shutdown (t_cfg t) = false /\
    tc_timeout (t_cfg t) <> Some 0 /\ B - A <= timeout_of cf t /\ forall r, In r (t_stack t) -> A <= rn_start r.
(** Shutting down because of an error *)
Definition erroneous (x : option exn) : Prop := x <> None /\ x <> Some SchedulerRestart.

(** * Running selected tasks *)
Definition cycles (evs : list event) : nat :=
  length (filter (fun e => match e with EvCycle => true | _ => false end) evs).
(** What the caller set on the tasks *)
Definition settings (w : world) : list (tcfg * bool * bool) :=
  map (fun t => (t_cfg t, t_disabled t, t_term t)) (w_tasks w).

(** The status of the named task. *)
Definition status_of (name : Z) (w : world) : option action :=
  match find_task name w with Some t => ts_status (t_state t) | None => None end.

(** How the end of a run is recorded: by how its code ended.  Asking for a
    restart or the end of the scheduler is a success. *)
Definition classified (ended : option exn) : action :=
  match ended with
  | None | Some SchedulerRestart | Some SchedulerExit => ASuccess
  | Some TaskInaction => AInaction
  | Some TaskTermination | Some CancelledError => ATerminate
  | Some _ => AFail
  end.
Definition leaves_scheduler (ended : option exn) : Prop := ended = Some SchedulerRestart \/ ended = Some SchedulerExit.
(** Nothing but the task's own code raises *)
Definition tidy (s : script) : Prop :=
  s_success s = None /\ s_failure s <> Some CancelledError /\ s_return s = None /\ s_finish s = None /\ s_post s = None.
(** Outside the task's own code nothing raises what is not an Exception *)
Definition ordinary (s : script) : Prop :=
  (forall e, s_setup s = Some e -> is_exception e = true) /\ (forall e, s_return s = Some e -> is_exception e = true) /\
  (forall e, s_finish s = Some e -> is_exception e = true) /\ (forall e, s_post s = Some e -> is_exception e = true) /\
  s_failure s <> Some CancelledError.
(** Exactly this is recorded, and the task has that status *)
Definition records (n : Z) (a : action) (rid : option Z) (w w' : world) : Prop :=
  w_log w' = w_log w ++ [Rec n a (w_clock w) rid] /\ status_of n w' = Some a.
Definition is_outcome (a : action) : Prop := a = ASuccess \/ a = AFail \/ a = AInaction \/ a = ATerminate.
(** No run of which something may still be recorded has this id *)
Definition unused (i : Z) (w : world) : Prop :=
  (forall r, In r (tracked w) -> rn_kind r <> XMain -> rn_id r <> Some i) /\
  (forall n r, In (n, r) (w_orphans w) -> rn_id r <> Some i).

(** Nothing but the log, the status and the termination request changes *)
Record undisturbed (w w' : world) : Prop := Undisturbed {
  ud_returns : w_returns w' = w_returns w;
  ud_queue : w_queue w' = w_queue w;
  ud_orphans : w_orphans w' = w_orphans w;
  ud_clock : w_clock w' = w_clock w;
  ud_tracked : tracked w' = tracked w }.

(** * Return values *)

(** The return value the session has for a task *)
Definition return_of (n : Z) (w : world) : option Z := option_map snd (find (fun r => fst r =? n) (w_returns w)).
(** The values of successes among records on their way, oldest first *)
Definition returned (qs : list qrec) : list (Z * Z) :=
  flat_map (fun q => match q_return q with
                     | Some v => if action_eqb (r_action (q_rec q)) ASuccess then [(r_task (q_rec q), v)] else []
                     | None => []
                     end) qs.

(** * The records of a run *)

(** The records that carry the run id [i], oldest first *)
Definition story (i : Z) (l : log) : list record :=
  filter (fun r => match r_run_id r with Some j => j =? i | None => false end) l.
(** Outcomes of one run of task [n]: at least one, and all but one at most are
    terminations *)
Definition outcomes (n : Z) (l : list record) : Prop :=
  l <> [] /\ (forall r, In r l -> r_task r = n /\ is_outcome (r_action r)) /\
  (length (filter (fun r => negb (action_eqb (r_action r) ATerminate)) l) <= 1)%nat.
(** A run with id [i] and identity [u] of the task [n] was seen *)
Definition seen_run (w : world) (n : Z) (u : nat) (i : Z) : Prop :=
  exists ts t r, observed w ts /\ In t ts /\ In r (t_stack t) /\ t_name t = n /\ rn_uid r = u /\ rn_id r = Some i.
(** The id was not used before *)
Definition new_id (i : Z) (w : world) : Prop :=
  (forall r, In r (w_log w) -> r_run_id r <> Some i) /\ (forall n u, ~ seen_run w n u i).
(** Code that ends as a task's code does: nothing fails but the task itself, and
    it does not leave the scheduler *)
Definition proper (s : script) : Prop := s_setup s = None /\ tidy s /\ ~ leaves_scheduler (s_exec s).
(** No child process dies by itself *)
Definition proper_move (m : move) : Prop :=
  match m with
  | MEnter _ s | MLeave _ s | MOrphan s | MThread _ s | MProcess _ s => proper s
  | MKilled _ => False
  | _ => True
  end.
(** Nothing fails but the tasks' own code, and run ids are not used twice *)
Record proper_session (orc : oracle) : Prop := ProperSession {
  ps_write : forall k, o_write orc k = true;
  ps_prep : forall k, o_prep orc k = None;
  ps_spawn : forall k, o_spawn orc k = None;
  ps_boot : forall k, o_boot orc k = true;
  ps_script : forall k, proper (o_script orc k);
  ps_env : forall k m, In m (o_env orc k) -> proper_move m;
  ps_id : forall k, exists i, o_run_id orc k = Ok i;
  ps_ids : forall j k i, o_run_id orc j = Ok i -> o_run_id orc k = Ok i -> j = k }.
