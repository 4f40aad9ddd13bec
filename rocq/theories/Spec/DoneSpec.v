(** Tasks that are run one at a time in the scheduler's own process, as
    coroutines or threads, and what is known of their history (C75). *)
From Coq Require Import ZArith List.
From Verif Require Import Model.Base Model.History Spec.HistorySpec Spec.SchedulerSpec Model.World.
Import ListNotations.
Open Scope Z_scope.

(** Task [me] is a coroutine or a thread and is not launched while it runs. *)
Definition one_at_a_time_here (cf : config) (me : Z) (w : world) : Prop :=
  forall t, In t (w_tasks w) -> t_name t = me -> (executes cf t XAsync \/ executes cf t XThread) /\ ~ multilaunch cf t.

(** The records of [me] in the log are in the order of time and in the past, the
    task's cache knows the latest of each kind, and nothing of [me] is under way
    in another process or out of sight.  (So it is in a new session with an
    empty log.)  Names of tasks differ. *)
Definition own_in_order (me : Z) (l : log) : Prop :=
  forall l1 a l2 b l3, l = l1 ++ a :: l2 ++ b :: l3 -> r_task a = me -> r_task b = me -> r_created a <= r_created b.
Record complete_history (me : Z) (w : world) : Prop := CompleteHistory {
  ch_order : own_in_order me (w_log w);
  ch_past : forall r, In r (w_log w) -> r_task r = me -> r_created r <= w_clock w;
  ch_noted : forall t r, In t (w_tasks w) -> t_name t = me -> In r (w_log w) -> r_task r = me ->
    exists c, ts_last (t_state t) (r_action r) = Some c /\ r_created r <= c;
  ch_cached : forall t a c, In t (w_tasks w) -> t_name t = me -> ts_last (t_state t) a = Some c -> c <= w_clock w;
  ch_names : NoDup (map t_name (w_tasks w));
  ch_queue : forall q, In q (w_queue w) -> r_task (q_rec q) <> me;
  ch_orphans : forall n r, In (n, r) (w_orphans w) -> n <> me;
  ch_stack : forall t r, In t (w_tasks w) -> t_name t = me -> In r (t_stack t) -> rn_kind r <> XProcess }.

(** A condition or else the retrying of failures: "daily | retry(n)" *)
Definition gate_or_retry (gate : HistorySpec.world -> Z -> bool) (me : Z) (force : bool) (n : Z) (w : HistorySpec.world) (d : Z) : bool :=
  gate w d || retry_state n force (fst w) (snd w) me.
