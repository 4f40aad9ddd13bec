(** Specification of records carried from a process to the log. *)
From Verif Require Import Model.Base Model.Carrying.
Open Scope Z_scope.

(** A record as the task's logger makes it outside a process: nothing has
    formatted it yet *)
Definition as_logged (r : lrec) : Prop :=
  r_message r = None /\ r_exc_text r = None /\ r_return r = None /\ (r_exc_info r = NoInfo \/ exists e, r_exc_info r = Exception e).

(** The same record made in a process: that of a success (action 1) has the
    return value *)
Definition in_process (v : Z) (r : lrec) : lrec :=
  match r_action r with
  | Some 1 => LRec (r_msg r) (r_args r) (r_message r) (r_exc_info r) (r_exc_text r) (r_action r) (Some v) (r_rest r)
  | _ => r
  end.
Definition returned (v : Z) (r : lrec) : option Z := match r_action r with Some 1 => Some v | _ => None end.
