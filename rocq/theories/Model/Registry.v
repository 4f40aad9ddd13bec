(** Model of the tasks of sessions: rocketry/session.py:199-242, 417-439,
    518-524, rocketry/core/task.py:305-372, 387-388, 413-416, 901-906 and
    rocketry/application.py:34-43, 95-101. *)
From Coq Require Import String Ascii DecimalString.
From Verif Require Import Model.Base Model.Condition Model.World.
Local Open Scope string_scope.

(** session.py:51 Config.task_pre_exist: any string; [POther] is one without a
    meaning. *)
Inductive policy : Type := PRaise | PIgnore | PRename | PReplace | POther.

(** A task object: core/task.py:207-260.  Objects are told apart by identity
    (core/task.py:387-388).  [o_link] is what tasks/func.py:196 leaves on the
    function of a decorated task: the name it had when it was created. *)
Record tobj : Type := TObj {
  o_name : string;
  o_session : nat;
  o_start : cond;
  o_exec : option exec;
  o_link : string }.

(** The task objects and the sessions there are, both by identity.
    [st_tasks s]: the set of tasks of a session, in the order in which it is
    iterated.  Only what concerns tasks is kept of a session. *)
Record store : Type := Store {
  st_obj : nat -> tobj;
  st_next : nat;
  st_tasks : nat -> list nat;
  st_policy : nat -> policy }.

Definition set_obj (i : nat) (o : tobj) (st : store) : store :=
  Store (fun j => if Nat.eqb j i then o else st_obj st j) (st_next st) (st_tasks st) (st_policy st).
Definition set_tasks (s : nat) (l : list nat) (st : store) : store :=
  Store (st_obj st) (st_next st) (fun j => if Nat.eqb j s then l else st_tasks st j) (st_policy st).
Definition set_policy (s : nat) (p : policy) (st : store) : store :=
  Store (st_obj st) (st_next st) (st_tasks st) (fun j => if Nat.eqb j s then p else st_policy st j).

Definition with_name (n : string) (o : tobj) : tobj := TObj n (o_session o) (o_start o) (o_exec o) (o_link o).
Definition with_session (s : nat) (o : tobj) : tobj := TObj (o_name o) s (o_start o) (o_exec o) (o_link o).
Definition with_start (c : cond) (o : tobj) : tobj := TObj (o_name o) (o_session o) c (o_exec o) (o_link o).
Definition with_exec (x : option exec) (o : tobj) : tobj := TObj (o_name o) (o_session o) (o_start o) x (o_link o).

(** session.py:227-233 __getitem__ with a name (a task object counts for its
    name, session.py:207-208; a function for its link, 204-206) *)
Definition lookup (st : store) (s : nat) (n : string) : result nat :=
  match find (fun i => String.eqb (o_name (st_obj st i)) n) (st_tasks st s) with
  | Some i => Ok i
  | None => Err KeyError
  end.
Definition lookup_function (st : store) (s : nat) (i : nat) : result nat := lookup st s (o_link (st_obj st i)).
(** session.py:235-242 __contains__ *)
Definition contains (st : store) (s : nat) (n : string) : bool :=
  match lookup st s n with Ok _ => true | Err _ => false end.

(** f"{basename} - {num}" (core/task.py:358) *)
Definition numbered (base : string) (num : nat) : string :=
  base ++ " - " ++ NilEmpty.string_of_uint (Nat.to_uint num).
(** The loop core/task.py:356-358; [fuel] bounds its rounds (C36 shows that one
    more than there are tasks is enough). *)
Fixpoint fresh_name (st : store) (s : nat) (base : string) (num fuel : nat) : option string :=
  match fuel with
  | O => None
  | S fuel => let n := numbered base num in
              if contains st s n then fresh_name st s base (S num) fuel else Some n
  end.
(** core/task.py:342-360 parse_name *)
Definition parse_name (st : store) (s : nat) (n : string) : result string :=
  if contains st s n then
    match st_policy st s with
    | PIgnore => Ok n
    | PRaise => Err ValueError
    | PRename => match fresh_name st s n 1 (S (length (st_tasks st s))) with
                 | Some n => Ok n
                 | None => Err RecursionError
                 end
    | PReplace | POther => Ok n
    end
  else Ok n.
(** core/task.py:362-372 validate_name *)
Definition validate_name (st : store) (s : nat) (n : string) : result string :=
  if contains st s n then
    match st_policy st s with PIgnore => Ok n | _ => Err ValueError end
  else Ok n.
(** Both validators, in the order in which pydantic runs them *)
Definition check_name (st : store) (s : nat) (n : string) : result string :=
  match parse_name st s n with Ok n => validate_name st s n | Err e => Err e end.

(** session.py:438, 425 and core/task.py:416: set.remove *)
Definition set_remove (i : nat) (l : list nat) : result (list nat) :=
  if existsb (Nat.eqb i) l then Ok (filter (fun j => negb (Nat.eqb j i)) l) else Err KeyError.
(** set.add *)
Definition set_add (i : nat) (l : list nat) : list nat := if existsb (Nat.eqb i) l then l else (l ++ [i])%list.

(** session.py:417-433 add_task *)
Definition add_task (s i : nat) (st : store) : store * result unit :=
  let join st := (set_obj i (with_session s (st_obj st i)) st, Ok tt) in
  if contains st s (o_name (st_obj st i)) then
    match st_policy st s with
    | PIgnore => (st, Ok tt)
    | PReplace => match set_remove i (st_tasks st s) with
                  | Ok l => join (set_tasks s (set_add i l) st)
                  | Err e => (st, Err e)
                  end
    | PRaise => (st, Err KeyError)
    | PRename | POther => join st
    end
  else join (set_tasks s (set_add i (st_tasks st s)) st).

(** core/task.py:305-332 __init__ and 901-906 register: a new task with a name
    (hooks, the logger and the other fields are left out) *)
Definition new_task (s : nat) (n : string) (c : cond) (x : option exec) (st : store) : store * result unit :=
  match check_name st s n with
  | Err e => (st, Err e)
  | Ok n => let i := st_next st in
            add_task s i (Store (fun j => if Nat.eqb j i then TObj n s c x n else st_obj st j) (S i)
                                (st_tasks st) (st_policy st))
  end.

(** task.name = n: pydantic's validate_assignment (core/task.py:198) runs the
    validators of the name against the task's session. *)
Definition set_name (i : nat) (n : string) (st : store) : store * result unit :=
  match check_name st (o_session (st_obj st i)) n with
  | Err e => (st, Err e)
  | Ok n => (set_obj i (with_name n (st_obj st i)) st, Ok tt)
  end.

(** session.py:435-439 remove_task *)
Definition remove_task (s i : nat) (st : store) : store * result unit :=
  match set_remove i (st_tasks st s) with
  | Ok l => (set_tasks s l st, Ok tt)
  | Err e => (st, Err e)
  end.
Definition remove_named (s : nat) (n : string) (st : store) : store * result unit :=
  match lookup st s n with Ok i => remove_task s i st | Err e => (st, Err e) end.
(** core/task.py:413-416 delete *)
Definition delete (i : nat) (st : store) : store * result unit := remove_task (o_session (st_obj st i)) i st.
(** session.py:518-524 clear *)
Definition clear (s : nat) (st : store) : store * result unit := (set_tasks s [] st, Ok tt).

(** application.py:95-101 Grouper; its session has the default policy. *)
Record grouper : Type := Grouper {
  g_session : nat;
  g_prefix : string;                     (* "" for None *)
  g_start : option cond;
  g_exec : option exec }.

(** application.py:35-41: one task of a group *)
Definition include_task (s : nat) (g : grouper) (i : nat) (st : store) : store * result unit :=
  match (if String.eqb (g_prefix g) "" then (st, Ok tt)
         else set_name i (g_prefix g ++ o_name (st_obj st i)) st) with
  | (st, Err e) => (st, Err e)
  | (st, Ok _) =>
      let o := st_obj st i in
      let o := match g_start g with Some c => with_start (c_and (o_start o) c) o | None => o end in
      let o := with_exec (match o_exec o with None => g_exec g | x => x end) o in
      add_task s i (set_obj i o st)
  end.
Fixpoint include_tasks (s : nat) (g : grouper) (l : list nat) (st : store) : store * result unit :=
  match l with
  | [] => (st, Ok tt)
  | i :: l => match include_task s g i st with
              | (st, Ok _) => include_tasks s g l st
              | (st, Err e) => (st, Err e)
              end
  end.
(** application.py:34-42 include_grouper (the session parameters are left out) *)
Definition include_grouper (s : nat) (g : grouper) (st : store) : store * result unit :=
  include_tasks s g (st_tasks st (g_session g)) st.

(** What users do *)
Inductive op : Type :=
| ONew (s : nat) (n : string) (c : cond) (x : option exec)
| OAdd (s i : nat)
| OName (i : nat) (n : string)
| ORemove (s i : nat)
| ORemoveNamed (s : nat) (n : string)
| ODelete (i : nat)
| OClear (s : nat)
| OPolicy (s : nat) (p : policy)
| OInclude (s : nat) (g : grouper).

(** (There are objects up to [st_next] only.) *)
Definition apply_op (o : op) (st : store) : store * result unit :=
  match o with
  | ONew s n c x => new_task s n c x st
  | OAdd s i => if Nat.ltb i (st_next st) then add_task s i st else (st, Ok tt)
  | OName i n => if Nat.ltb i (st_next st) then set_name i n st else (st, Ok tt)
  | ORemove s i => remove_task s i st
  | ORemoveNamed s n => remove_named s n st
  | ODelete i => delete i st
  | OClear s => clear s st
  | OPolicy s p => (set_policy s p st, Ok tt)
  | OInclude s g => include_grouper s g st
  end.
(** Exceptions are caught between the operations. *)
Fixpoint history (os : list op) (st : store) : store :=
  match os with [] => st | o :: os => history os (fst (apply_op o st)) end.
(** Before anything was done: sessions without tasks and with the default policy *)
Definition empty_store : store :=
  Store (fun _ => TObj "" 0 CFalse None "") 0 (fun _ => []) (fun _ => PRaise).
