(** What restarting should do. *)
From Verif Require Import Model.Base Model.History Model.World Model.Run Model.Scheduler Model.Relaunch.
From Verif Require Import Spec.SchedulerSpec.

(** Nothing in a run raises SchedulerRestart *)
Definition mild_script (s : script) : Prop :=
  forall f, In f [s_setup; s_exec; s_success; s_failure; s_return; s_finish; s_post] -> f s <> Some SchedulerRestart.
Definition mild_move (m : move) : Prop :=
  match m with
  | MRestart => False
  | MEnter _ s | MLeave _ s | MOrphan s | MThread _ s | MProcess _ s => mild_script s
  | _ => True
  end.
(** Nobody calls session.restart(), and no task, condition, hook, log or run id function raises
    SchedulerRestart *)
Record nobody_restarts (orc : oracle) : Prop := NobodyRestarts {
  nr_env : forall k m, In m (o_env orc k) -> mild_move m;
  nr_script : forall k, mild_script (o_script orc k);
  nr_cond : forall k n w, o_cond orc k n w <> Err SchedulerRestart;
  nr_end : forall k, o_end orc k <> Err SchedulerRestart;
  nr_shut : forall k, o_shut orc k <> Err SchedulerRestart;
  nr_prep : forall k, o_prep orc k <> Some SchedulerRestart;
  nr_spawn : forall k, o_spawn orc k <> Some SchedulerRestart;
  nr_run_id : forall k, o_run_id orc k <> Err SchedulerRestart;
  nr_hook : forall k, o_hook orc k <> Some SchedulerRestart }.

(** The scheduler, started in [w], stopped working because of a restart *)
Definition restart_called (orc : oracle) (cf : config) (fuel : nat) (w : world) : Prop :=
  snd ((startup orc cf fuel ;; main_loop orc cf fuel) (set_flags true false false (w_force w) w)) = Raises SchedulerRestart.

(** [k] whole sessions, each followed by a restart, and a last one that is not; no run is alive
    between them. *)
Inductive sessions (orc : oracle) (cf : config) (fuel : nat) : world -> world -> outcome unit -> nat -> Prop :=
| last_session : forall w w' o, serve orc cf fuel w = (w', o) ->
    ~ (restart_called orc cf fuel w /\ o = Returns tt) -> sessions orc cf fuel w w' o 0
| next_session : forall w w1 w' o k, serve orc cf fuel w = (w1, Returns tt) -> restart_called orc cf fuel w ->
    (forall r, In r (tracked w1) -> live r = false) ->
    sessions orc cf fuel w1 w' o k -> sessions orc cf fuel w w' o (S k).
(** The same outcome, whatever is returned *)
Definition outcome_of {A B : Type} (o : outcome A) (o' : outcome B) : Prop :=
  match o, o' with
  | Returns _, Returns _ => True
  | Raises e, Raises e' => e = e'
  | OutOfFuel, OutOfFuel => True
  | _, _ => False
  end.

(** The shut condition does not hold *)
Definition goes_on (orc : oracle) (w : world) : Prop :=
  match w_shut w with
  | ShutCycles n => (w_cycles w < n)%nat
  | ShutUser => o_shut orc (w_tick w) = Ok false
  end.
(** Neither a cycle nor a run begins *)
Definition nothing_begins (evs : list event) : Prop := ~ In EvCycle evs /\ forall n u, ~ In (EvStart n u) evs.
