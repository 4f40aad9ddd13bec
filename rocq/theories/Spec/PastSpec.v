(** What the conditions about what tasks have done should say. *)
From Coq Require Import List Bool ZArith.
From Verif Require Import Model.Base Model.Interval Model.Calendar Model.Anchored Model.Period Model.Condition Model.History Model.Past
  Spec.PeriodSpec Spec.HistorySpec.
Import ListNotations.
Local Open Scope Z_scope.
Local Open Scope list_scope.

(** How many records of [acts] the task has in all *)
Fixpoint ever (l : log) (name : Z) (acts : list action) : Z :=
  match l with
  | [] => 0
  | r :: l => (if (r_task r =? name) && existsb (action_eqb (r_action r)) acts then 1 else 0) + ever l name acts
  end.

(** The records of the task are of the time from 3 January 1970, 2:00, until now *)
Definition dated (l : log) (name now : Z) : Prop :=
  now <= p_max /\ p_min <= now /\ forall r, In r l -> r_task r = name -> p_min <= r_created r <= now.

(** The task's memory can be trusted: it is that of its latest records; or the log is
    in the order of time and the session reads it anyway. *)
Definition trusted (own_force : bool) (l : log) (t : ptask) : Prop :=
  if own_force then chronological l else cache_latest (pt_state t) l (pt_name t).

(** [named] and [current] mean the task [t] *)
Definition meant (tasks : list ptask) (current : option ptask) (named : option Z) (t : ptask) : Prop :=
  match named with
  | Some n => In t tasks /\ pt_name t = n /\ forall t', In t' tasks -> pt_name t' = n -> t' = t
  | None => current = Some t
  end.

(** The start condition is neither a TaskSucceeded nor a TaskFinished, and not an All with a TaskFinished *)
Definition plain_start (c : start_cond) : Prop :=
  match c with
  | StartOne c => c = PartOther
  | StartAll cs => ~ In PartFinished cs
  end.

(** The minutes, hours, days, weeks and months: when the [k]-th begins *)
Inductive span_unit : Type := ThisMinute | ThisHour | ThisDay | ThisWeek | ThisMonth.
Definition unit_class (u : span_unit) : acls :=
  match u with ThisMinute => TMinute | ThisHour => THour | ThisDay => TDay | ThisWeek => TWeek | ThisMonth => TMonth end.
Definition unit_begin (u : span_unit) (k : Z) : Z :=
  match u with
  | ThisMinute => k * (60 * 10 ^ 6)
  | ThisHour => k * (60 * 60 * 10 ^ 6)
  | ThisDay => k * (24 * 60 * 60 * 10 ^ 6)
  | ThisWeek => k * (7 * 24 * 60 * 60 * 10 ^ 6)
  | ThisMonth => month_begin k
  end.
