(** Sessions in which a task is started by its condition alone, and what the run
    records of the log should then say (C75). *)
From Coq Require Import ZArith List.
From Verif Require Import Model.Base Model.History Spec.HistorySpec Spec.SchedulerSpec Model.World.
Import ListNotations.
Open Scope Z_scope.

(** A record saying that task [me] was run. *)
Definition run_record (me : Z) (r : record) : Prop := r_task r = me /\ r_action r = ARun.

(** The clock never goes back: whoever moves it at the [k]-th question to the
    outside sets it to [time k]. *)
Definition time_goes_on (orc : oracle) (time : nat -> Z) : Prop :=
  (forall j k, (j <= k)%nat -> time j <= time k) /\
  (forall k t, In (MClock t) (o_env orc k) -> t = time k).

(** The start condition of [me] holds only where [gate] does, given the task's
    cached status, the log and the time. *)
Definition requires (orc : oracle) (me : Z) (gate : HistorySpec.world -> Z -> bool) : Prop :=
  forall k w t, find_task me w = Some t -> o_cond orc k me w = Ok true -> gate (t_state t, w_log w) (w_clock w) = true.

(** Task [me] exists, has a start condition, and nobody asks for a run of it. *)
Record by_condition (orc : oracle) (me : Z) (w : world) : Prop := ByCondition {
  bc_found : exists t, find_task me w = Some t;
  bc_request : forall k p, ~ In (MRequest me p) (o_env orc k);
  bc_batches : forall t, In t (w_tasks w) -> t_name t = me -> t_batches t = [];
  bc_cond : forall t, In t (w_tasks w) -> t_name t = me -> tc_always_false (t_cfg t) = false }.

(** If the code of [me] runs in the scheduler's own thread, nothing around that
    code fails. *)
Definition undisturbed (orc : oracle) (cf : config) (me : Z) (w : world) : Prop :=
  forall t, In t (w_tasks w) -> t_name t = me -> executes cf t XMain ->
  forall k, s_setup (o_script orc k) = None /\ tidy (o_script orc k).

(** The runs of [me] in the log are in the order of time and in the past, and
    the task's cache knows the latest; no child process is just starting.  (So
    it is in a new session with an empty log.) *)
Definition runs_in_order (me : Z) (l : log) : Prop :=
  forall l1 a l2 b l3, l = l1 ++ a :: l2 ++ b :: l3 -> run_record me a -> run_record me b -> r_created a <= r_created b.
Record known_history (me : Z) (w : world) : Prop := KnownHistory {
  kh_order : runs_in_order me (w_log w);
  kh_past : forall r, In r (w_log w) -> run_record me r -> r_created r <= w_clock w;
  kh_noted : forall t r, In t (w_tasks w) -> t_name t = me -> In r (w_log w) -> run_record me r ->
    exists c, ts_last (t_state t) ARun = Some c /\ r_created r <= c;
  kh_cached : forall t c, In t (w_tasks w) -> t_name t = me -> ts_last (t_state t) ARun = Some c -> c <= w_clock w;
  kh_queue : forall q, In q (w_queue w) ->
    r_action (q_rec q) <> ARun /\ exists t, find_task (r_task (q_rec q)) w = Some t }.

(** Every new run record of [me] meets [P], given the log before it. *)
Definition every_new_run (me : Z) (old log' : log) (P : log -> record -> Prop) : Prop :=
  exists new, log' = old ++ new /\
    forall pre r post, new = pre ++ r :: post -> run_record me r -> P (old ++ pre) r.
