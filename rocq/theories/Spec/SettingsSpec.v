(** What it means that the settings given are those that are used. *)
From Coq Require Import String.
From Verif Require Import Model.Base Model.Settings.
Local Open Scope string_scope.
Local Open Scope list_scope.

(** The value of a setting given with a session: in the dict of settings, if
    there is one, or as a keyword *)
Definition given (src : source) (kw : settings) (k : string) : option sval :=
  match src with
  | FromDict d => match sget d k with Some v => Some v | None => sget kw k end
  | _ => sget kw k
  end.

(** Settings are given in a dict or not, and in the former case not as keywords too *)
Definition settings_given (src : source) (kw : settings) : Prop :=
  src = FromNone \/ exists d, src = FromDict d /\ forall k v, In (k, v) kw -> sget d k = None.

(** What is given under the name of a setting has the type of the setting; the
    deprecated name counts as well *)
Definition well_typed (cpus : Z) (src : source) (kw : settings) : Prop :=
  forall f v, In f (config_fields cpus) ->
    given src kw (f_name f) = Some v \/ (f_name f = "execution" /\ given src kw "task_execution" = Some v) ->
    fits (f_kind f) v = true.

(** No condition on shutting down is a condition that never holds *)
Definition taken_as (k : string) (v : sval) : sval :=
  match v with VNone => if String.eqb k "shut_cond" then always_false else v | _ => v end.

(** The setting that is set *)
Definition sets (o : sop) : option (nat * string) :=
  match o with
  | OSet s k _ => Some (s, k)
  | ORun s _ => Some (s, "debug")
  | _ => None
  end.

(** Two sessions with the same Config object *)
Definition shares (w : sworld) (s s' : nat) : Prop := nth_error (w_sessions w) s = nth_error (w_sessions w) s'.
(** Nobody passes on a Config object *)
Definition own_configs (ops : list sop) : Prop :=
  forall o, In o ops ->
    match o with
    | OSession (FromConfig _) _ | OApp _ (FromConfig _) _ => False
    | _ => True
    end.

(** Options of tasks, the settings they stand for, and what is gone by *)
Definition stand_ins : list (string * string * (sworld -> nat * settings -> option sval)) :=
  [("execution", "execution", task_execution); ("multilaunch", "multilaunch", task_multilaunch);
   ("daemon", "tasks_as_daemon", task_daemon); ("func_run_id", "func_run_id", task_run_id);
   ("timeout", "timeout", Settings.task_timeout)].
Definition option_kind (k : string) : option kind :=
  option_map f_kind (find (fun f => String.eqb (f_name f) k) task_fields).
Definition fits_option (k : string) (v : sval) : Prop :=
  match option_kind k with Some kd => fits kd v = true | None => False end.

(** [k] is the name of a setting, of an option of tasks *)
Definition is_setting (cpus : Z) (k : string) : Prop := In k (map f_name (config_fields cpus)) \/ k = "task_execution".
Definition is_option (k : string) : Prop := In k (map f_name task_fields).

(** Conversions that do nothing: values of other types than those of their
    fields are refused *)
Definition strict : bool -> string -> sval -> option sval := fun _ _ _ => None.
