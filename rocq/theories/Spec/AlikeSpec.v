(** What it is for arguments and parameter sets to be alike. *)
From Coq Require Import Bool.
From Verif Require Import Model.Base Model.World Model.Params Model.Alike.
Local Open Scope Z_scope.

(** What an entry is worth to a run of a task (Model.Params) *)
Definition worth (n : nat) (s : sess) (cx : ctx) (p : param) : result value :=
  match p with PVal v => Ok v | PArg a => get_value n s cx a end.
Definition for_task (cx : ctx) : Prop := exists t, cx_task cx = Some t.

(** Arguments that say all they need: values, secrets, variables and options, the
    session and the task, functions that take no arguments themselves, and those got
    from the session with the same default *)
Definition default_of (a : arg) : option value := match a with ArgKey _ d => d | _ => None end.
Definition settled (a : arg) : Prop :=
  match a with FuncArg _ (_ :: _) _ | PipeArg _ => False | _ => True end.
Definition comparable (p q : param) : Prop :=
  match p, q with
  | PArg a, PArg b => settled a /\ settled b /\ default_of a = default_of b
  | _, _ => True
  end.

(** A dictionary has each key once, and an identity is that of one object. *)
Definition keys_once {V} (d : dict V) : Prop := NoDup (map fst d).
Definition one_object (a b : objects) : Prop :=
  forall k k' i p q, In (k, (i, p)) a -> In (k', (i, q)) b -> p = q.
Definition all_comparable (a b : objects) : Prop :=
  forall k i p j q, In (k, (i, p)) a -> In (k, (j, q)) b -> comparable p q.

(** A set of plain values *)
Definition values_only (a : objects) : Prop := forall k i p, In (k, (i, p)) a -> exists v, p = PVal v.
(** What a name stands for in a set *)
Definition has (a : objects) (k : Z) (p : param) : Prop := exists i, In (k, (i, p)) a.
