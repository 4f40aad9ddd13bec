(** Model of rocketry/utils/dependencies.py. *)
From Coq Require Import String.
From Verif Require Import Model.Base Model.Condition Model.World Model.Registry.

(** DependFinish, DependSuccess, DependFailure (conditions/task/task.py:373-447) *)
Inductive relation : Type := RFinish | RSuccess | RFailure.
(** Link.type: the class of the combination the dependency is in *)
Inductive combination : Type := InAny | InAll.
(** dependencies.py:12-22 Link *)
Record link : Type := Link {
  l_parent : nat;
  l_child : nat;
  l_relation : relation;
  l_type : option combination }.

Section Links.
  (** Which basic conditions are dependencies, and on what name (a task object or
      a function as depend_task counts for its name, session.py:199-211) *)
  Variable dep : nat -> option (relation * string).
  Variable st : store.
  Variable s : nat.

  Definition is_dep (c : cond) : option (relation * string) := match c with CAtom a => dep a | _ => None end.

  (** dependencies.py:60-65 *)
  Fixpoint sub_links (child : nat) (k : combination) (cs : list cond) : result (list link) :=
    match cs with
    | [] => Ok []
    | c :: cs =>
        match is_dep c with
        | Some (r, n) =>
            match lookup st s n with
            | Ok p => match sub_links child k cs with
                      | Ok ls => Ok (Link p child r (Some k) :: ls)
                      | Err e => Err e
                      end
            | Err e => Err e
            end
        | None => sub_links child k cs
        end
    end.
  (** dependencies.py:58-69 _get_links *)
  Definition get_links (child : nat) : result (list link) :=
    match o_start (st_obj st child) with
    | CAny cs => sub_links child InAny cs
    | CAll cs => sub_links child InAll cs
    | c => match is_dep c with
           | Some (r, n) => match lookup st s n with
                            | Ok p => Ok [Link p child r None]
                            | Err e => Err e
                            end
           | None => Ok []
           end
    end.
  (** dependencies.py:54-56 __iter__ *)
  Fixpoint all_links (tasks : list nat) : result (list link) :=
    match tasks with
    | [] => Ok []
    | i :: tasks => match get_links i with
                    | Ok ls => match all_links tasks with Ok more => Ok (ls ++ more)%list | Err e => Err e end
                    | Err e => Err e
                    end
    end.
End Links.
(** dependencies.py:72-74 get_dependencies *)
Definition get_dependencies (dep : nat -> option (relation * string)) (st : store) (s : nat) : result (list link) :=
  all_links dep st s (st_tasks st s).
