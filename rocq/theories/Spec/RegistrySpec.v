(** Specifications for the tasks of sessions. *)
From Coq Require Import String.
From Verif Require Import Model.Base Model.Condition Model.World Model.Registry.
Open Scope nat_scope.

Definition task_of (st : store) (s i : nat) : Prop := In i (st_tasks st s).
Definition name_of (st : store) (i : nat) : string := o_name (st_obj st i).
Definition used (st : store) (s : nat) (n : string) : Prop := exists i, task_of st s i /\ name_of st i = n.

(** Each name denotes at most one task of the session, and no task is there
    twice. *)
Definition unique_names (st : store) (s : nat) : Prop :=
  NoDup (st_tasks st s) /\ forall i j, task_of st s i -> task_of st s j -> name_of st i = name_of st j -> i = j.

(** An operation leaves the tasks of [s] to [s], and renames none of them under
    the policy to ignore. *)
Definition keeps_to (s : nat) (o : op) (st : store) : Prop :=
  match o with
  | OAdd s' i => task_of st s i -> s' = s
  | OName i _ => task_of st s i -> st_policy st s <> PIgnore
  | OInclude s' g => forall i, task_of st (g_session g) i -> task_of st s i -> s' = s /\ st_policy st s <> PIgnore
  | _ => True
  end.
Fixpoint all_keep_to (s : nat) (os : list op) (st : store) : Prop :=
  match os with
  | [] => True
  | o :: os => keeps_to s o st /\ all_keep_to s os (fst (apply_op o st))
  end.

(** A session whose tasks are its own *)
Definition orderly (st : store) (s : nat) : Prop :=
  unique_names st s /\ forall i, task_of st s i -> o_session (st_obj st i) = s /\ i < st_next st.

(** What becomes of a task of a group *)
Definition prefixed (g : grouper) (n : string) : string := (g_prefix g ++ n)%string.
Definition both (env : nat -> result bool) (c : cond) (d : option cond) : observation :=
  match d with
  | None => observe env c
  | Some d => match observe env c with
              | (Ok true, tr) => let (r, tr') := observe env d in (r, (tr ++ tr')%list)
              | other => other
              end
  end.

(** What holds of all sessions: no task twice, and objects that exist *)
Definition sane (st : store) : Prop := forall s, NoDup (st_tasks st s) /\ forall i, In i (st_tasks st s) -> i < st_next st.
