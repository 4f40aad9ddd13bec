(** What the conditions about running tasks and the scheduler should say. *)
From Coq Require Import List Bool ZArith Permutation.
From Verif Require Import Model.Base Model.Interval Model.Period Model.Condition Model.History Model.Running
  Spec.ConditionSpec.
Import ListNotations.
Local Open Scope Z_scope.
Local Open Scope list_scope.

(** A run of a task as it happened: when it began and, if it has ended, how and when. *)
Record story : Type := Story { s_id : Z; s_began : Z; s_end : option (action * Z) }.
Definition alive (st : story) : bool := match s_end st with None => true | Some _ => false end.

(** The clock did not go back and nothing happened after [now] *)
Definition happened (now : Z) (st : story) : Prop :=
  p_min <= s_began st <= now /\
  match s_end st with
  | Some (a, t) => a <> ARun /\ s_began st <= t <= now
  | None => True
  end.

(** The records of a run, with its run id or without *)
Definition written (ids : bool) (name : Z) (st : story) : list record :=
  let id := if ids then Some (s_id st) else None in
  Rec name ARun (s_began st) id ::
  match s_end st with Some (a, t) => [Rec name a t id] | None => [] end.

(** The log tells of these runs of the task, in any order and among records of other tasks *)
Definition log_tells (ids : bool) (l : log) (name : Z) (runs : list story) : Prop :=
  Permutation (filter (fun r => r_task r =? name) l) (flat_map (written ids name) runs) /\ NoDup (map s_id runs).

(** The run stack of the task holds these runs; runs that have ended may have been taken out *)
Definition stack_tells (stack : list stack_run) (runs : list story) : Prop :=
  exists kept gone, Permutation runs (kept ++ gone) /\ (forall st, In st gone -> alive st = false) /\
    stack = map (fun st => StackRun (s_began st) (alive st)) kept.

(** The four forms of the condition, and the runs they are about *)
Inductive form : Type :=
| Running
| MoreThan (d : Z)
| LessThan (d : Z)
| Between (more_than less_than : Z).
Definition form_period (f : form) : option tperiod :=
  match f with
  | Running => running_any
  | MoreThan d => running_more_than d
  | LessThan d => running_less_than d
  | Between a b => running_between a b
  end.
(** From when on and until when they began *)
Definition earliest (f : form) (now : Z) : Z :=
  match f with Running | MoreThan _ => p_min | LessThan d | Between _ d => now - d end.
Definition latest_start (f : form) (now : Z) : Z :=
  match f with Running | LessThan _ => now | MoreThan d | Between d _ => now - d end.
Definition wanted (f : form) (now : Z) (st : story) : bool :=
  (earliest f now <=? s_began st) && (s_began st <=? latest_start f now).

Definition how_many (f : story -> bool) (runs : list story) : Z := Z.of_nat (List.length (filter f runs)).

(** Comparisons with integers; without one, whether there is any *)
Definition meets (cs : list (cmp_op * Z)) (n : Z) : Prop :=
  (cs = [] /\ n > 0) \/ (cs <> [] /\ forall op k, In (op, k) cs -> says op n k).
Definition as_comps (cs : list (cmp_op * Z)) : comps := map (fun x => (fst x, BInt (snd x))) cs.

(** What is asked for makes sense *)
Definition form_ok (f : form) (now : Z) : Prop :=
  now <= p_max /\ p_min <= now /\
  match f with
  | Running => True
  | MoreThan d => 0 <= d /\ p_min <= now - d
  | LessThan d => 0 <= d
  | Between a b => 0 <= a <= b
  end.

(** The run had not ended at the moment [m] *)
Definition going_at (m : Z) (st : story) : bool :=
  match s_end st with Some (_, t) => m <? t | None => true end.

(** ** The scheduler *)

(** Bounds that may be left out *)
Definition above (more_than : option Z) (n : Z) : Prop := match more_than with Some m => m < n | None => True end.
Definition below (less_than : option Z) (n : Z) : Prop := match less_than with Some m => n < m | None => True end.
Definition at_least (more_than : option Z) (n : Z) : Prop := match more_than with Some m => m <= n | None => True end.
Definition at_most (less_than : option Z) (n : Z) : Prop := match less_than with Some m => n <= m | None => True end.
