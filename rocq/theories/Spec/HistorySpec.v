(** What the history conditions should say, in terms of the records of the log
    and of histories of one task. *)
From Coq Require Import ZArith List Bool.
From Verif Require Import Model.Base Model.Interval Model.Anchored Model.Period Model.Condition Model.History Spec.PeriodSpec.
Import ListNotations.
Open Scope Z_scope.

(** Record [r] says that task [name] did one of [acts]. *)
Definition about (name : Z) (acts : list action) (r : record) : Prop :=
  r_task r = name /\ In (r_action r) acts.

(** [name] has a record of [acts] from [s] to [e]. *)
Definition did (l : log) (name : Z) (acts : list action) (s e : Z) : Prop :=
  exists r, In r l /\ about name acts r /\ s <= r_created r <= e.

(** How many. *)
Fixpoint times (l : log) (name : Z) (acts : list action) (s e : Z) : Z :=
  match l with
  | [] => 0
  | r :: l =>
      (if (r_task r =? name) && existsb (action_eqb (r_action r)) acts
          && (s <=? r_created r) && (r_created r <=? e) then 1 else 0)
      + times l name acts s e
  end.

(** The cached times are those of the latest records. *)
Definition cache_latest (st : tstate) (l : log) (name : Z) : Prop :=
  forall a,
    match ts_last st a with
    | None => forall r, In r l -> ~ about name [a] r
    | Some t => (exists r, In r l /\ about name [a] r /\ r_created r = t) /\
                (forall r, In r l -> about name [a] r -> r_created r <= t)
    end.

(** The log is in the order of time. *)
Definition chronological (l : log) : Prop :=
  forall l1 a l2 b l3, l = l1 ++ a :: l2 ++ b :: l3 -> r_created a <= r_created b.

(** The last element satisfying a predicate. *)
Definition last_such {A} (P : A -> Prop) (l : list A) (a : A) : Prop :=
  exists l1 l2, l = l1 ++ a :: l2 /\ P a /\ forall b, In b l2 -> ~ P b.

(** * Histories of one task [me]

    What happens to the task, in order: it is started because its condition
    held when looked at at [d]; it gets an outcome; something else is logged.
    [t1] is when the task notes it, [t2] the time in the log record. *)
Inductive hevent : Type :=
| HStart (d t1 t2 : Z) (id : option Z)
| HOutcome (a : action) (t1 t2 : Z) (id : option Z)
| HOther (r : record).

Definition world : Type := (tstate * log)%type.
Definition happly (me : Z) (w : world) (ev : hevent) : world :=
  match ev with
  | HStart _ t1 t2 id => fst (set_status (fst w) (snd w) me ARun t1 t2 id true)
  | HOutcome a t1 t2 id => fst (set_status (fst w) (snd w) me a t1 t2 id true)
  | HOther r => (fst w, snd w ++ [r])
  end.
Definition hrun (me : Z) (evs : list hevent) : world := fold_left (happly me) evs (fresh_state, []).

(** The clock never goes back, and the task is only started when [gate] held. *)
Inductive legal (me : Z) (gate : world -> Z -> bool) : list hevent -> Z -> Prop :=
| legal_nil c : legal me gate [] c
| legal_start evs c d t1 t2 id : legal me gate evs c -> c <= d -> d <= t1 -> t1 <= t2 ->
    gate (hrun me evs) d = true -> legal me gate (evs ++ [HStart d t1 t2 id]) t2
| legal_outcome evs c a t1 t2 id : legal me gate evs c -> c <= t1 -> t1 <= t2 -> a <> ARun ->
    legal me gate (evs ++ [HOutcome a t1 t2 id]) t2
| legal_other evs c r : legal me gate evs c -> c <= r_created r -> r_task r <> me ->
    legal me gate (evs ++ [HOther r]) (r_created r).

(** The task has no run going: nothing yet, or an outcome after the last start. *)
Definition busy (evs : list hevent) : bool :=
  fold_left (fun b ev => match ev with
                         | HStart _ _ _ _ => true
                         | HOutcome _ _ _ _ => false
                         | HOther _ => b
                         end) evs false.

(** Never started while busy (a task that does not allow multilaunch, C26). *)
Definition one_at_a_time (evs : list hevent) : Prop :=
  forall e1 d t1 t2 id e2, evs = e1 ++ HStart d t1 t2 id :: e2 -> busy e1 = false.

(** Starts decided from [s] on and before [e]; outcomes of a kind noted from [s] on and before [e]. *)
Fixpoint starts (evs : list hevent) (s e : Z) : Z :=
  match evs with
  | [] => 0
  | HStart d _ _ _ :: evs => (if (s <=? d) && (d <? e) then 1 else 0) + starts evs s e
  | _ :: evs => starts evs s e
  end.
Fixpoint outcomes (evs : list hevent) (a : action) (s e : Z) : Z :=
  match evs with
  | [] => 0
  | HOutcome b t1 _ _ :: evs =>
      (if action_eqb b a && (s <=? t1) && (t1 <? e) then 1 else 0) + outcomes evs a s e
  | _ :: evs => outcomes evs a s e
  end.

(** Looking at the period from [s] on and before [e] the elapsed part of the
    window is considered, from [s] at the latest. *)
Definition window (p : tperiod) (s e : Z) : Prop :=
  forall fuel d s' e', s <= d < e -> get_period_span fuel (Some p) d = Returns (s', e') -> s' <= s /\ e' = d.

Definition holds (o : outcome bool) : bool := match o with Returns b => b | _ => false end.

(** Some moments are after 1970, when log times begin. *)
Definition event_time (ev : hevent) : Z :=
  match ev with HStart _ _ t2 _ | HOutcome _ _ t2 _ => t2 | HOther r => r_created r end.

(** Outcomes of [dep] logged, of the given kinds. *)
Fixpoint triggers (dep : Z) (acts : list action) (evs : list hevent) : Z :=
  match evs with
  | [] => 0
  | HOther r :: evs =>
      (if (r_task r =? dep) && existsb (action_eqb (r_action r)) acts then 1 else 0) + triggers dep acts evs
  | _ :: evs => triggers dep acts evs
  end.
Fixpoint all_starts (evs : list hevent) : Z :=
  match evs with
  | [] => 0
  | HStart _ _ _ _ :: evs => 1 + all_starts evs
  | _ :: evs => all_starts evs
  end.

(** Failures in a row, and starts made after one: reset by any other outcome. *)
Definition retry_step (fr : Z * Z) (ev : hevent) : Z * Z :=
  let (fails, rets) := fr in
  match ev with
  | HStart _ _ _ _ => (fails, if 0 <? fails then rets + 1 else rets)
  | HOutcome AFail _ _ _ => (fails + 1, rets)
  | HOutcome _ _ _ _ => (0, 0)
  | HOther _ => (fails, rets)
  end.
Definition fails_and_retries (evs : list hevent) : Z * Z := fold_left retry_step evs (0, 0).

(** Failures of [name] after its last other outcome, in log order. *)
Definition fail_step (name : Z) (n : Z) (r : record) : Z :=
  if r_task r =? name
  then match r_action r with AFail => n + 1 | ARun => n | _ => 0 end
  else n.
Definition failures_in_a_row (l : log) (name : Z) : Z := fold_left (fail_step name) l 0.

(** * Bookkeeping of one task: any sequence of status changes

    [SSelf]: the task notes an action at [t1], the record says [t2];
    [SChild]: the record comes from a child process; [SElse]: another task's record. *)
Inductive sevent : Type :=
| SSelf (a : action) (t1 t2 : Z) (id : option Z)
| SChild (a : action) (t : Z) (id : option Z)
| SElse (r : record).
Definition sapply (me : Z) (w : world) (ev : sevent) : world :=
  match ev with
  | SSelf a t1 t2 id => fst (set_status (fst w) (snd w) me a t1 t2 id true)
  | SChild a t id => fst (log_record (fst w) (snd w) me a t id true)
  | SElse r => (fst w, snd w ++ [r])
  end.
Definition srun (me : Z) (w : world) (evs : list sevent) : world := fold_left (sapply me) evs w.
(** The action and the times of an event of the task itself *)
Definition s_action (ev : sevent) : option (action * Z * Z) :=
  match ev with
  | SSelf a t1 t2 _ => Some (a, t1, t2)
  | SChild a t _ => Some (a, t, t)
  | SElse _ => None
  end.

(** Times of [name]'s records all differ and increase. *)
Definition strictly_chronological (l : log) (name : Z) : Prop :=
  forall l1 a l2 b l3, l = l1 ++ a :: l2 ++ b :: l3 -> r_task a = name -> r_task b = name ->
  r_created a < r_created b.

(** * When the task is started *)
Definition gate_executable (me : Z) (force : bool) (retries : option Z) (fuel : nat) (p : tperiod) (w : world) (d : Z) : bool :=
  holds (executable force (fst w) (snd w) me retries fuel p d).
Definition gate_runnable (me : Z) (force : bool) (fuel : nat) (p : tperiod) (w : world) (d : Z) : bool :=
  holds (runnable force (fst w) (snd w) me fuel p d).

(** every(X, based="run" | "success" | "fail") *)
Definition gate_every (me : Z) (force : bool) (w : watched) (fuel : nat) (past : Z) (wd : world) (d : Z) : bool :=
  holds (every_based force (fst wd) (snd wd) me w fuel past d).
Definition gate_depend (me dep : Z) (acts : list action) (w : world) (d : Z) : bool :=
  depend_state (snd w) me dep acts.

Definition after_epoch (l : log) (name : Z) : Prop := forall r, In r l -> r_task r = name -> unix_epoch <= r_created r.

Definition own_action (a : action) (ev : sevent) : Prop := exists t1 t2, s_action ev = Some (a, t1, t2).

(** Events about other tasks. *)
Definition foreign (me : Z) (evs : list sevent) : Prop := forall r, In (SElse r) evs -> r_task r <> me.

(** With one clock reading per action and a clock that does not go back the
    cache is exact. *)
Definition one_reading (evs : list sevent) : Prop :=
  forall ev a t1 t2, In ev evs -> s_action ev = Some (a, t1, t2) -> t1 = t2.


(** [d] is in the [k]-th occurrence of a period of cycle length [L]; strictly
    after its start when the period covers whole cycles (an occurrence then
    starts at the moment the previous one ends). *)
Definition settled (L : Z) (p : anchored) (k d : Z) : Prop :=
  occ_start (every_L L) (a_start p) k <= d < occ_end (every_L L) (a_start p) (a_end p) k /\
  (is_full p = true -> occ_start (every_L L) (a_start p) k < d).
