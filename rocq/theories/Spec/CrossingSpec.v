(** What a task run in a process of its own should be given and give back. *)
From Verif Require Import Model.Base Model.World Model.Params Model.Condition Model.History Model.Crossing Spec.ParamsSpec.
Open Scope Z_scope.

(** * Arguments *)

(** Where a key comes from: the task itself, or else what it shares with others. *)
Definition own_source (t : ptask) (k : Z) : option param :=
  first_with [request_of t; pt_own t; signature_of t] k.
Definition shared_source (s : sess) (t : ptask) (passed : dict param) (k : Z) : option param :=
  if pt_takes t k then first_with [built_in t XProcess VNone; passed; ss_params s] k else None.

(** What is sent for a parameter: its value, or a function called in the child. *)
Definition sent_as (n : nat) (s : sess) (t : ptask) (p q : param) : Prop :=
  match p with
  | PVal v => q = PVal v
  | PArg a => (late s a -> q = PArg a) /\
              (~ late s a -> exists v, get_value n s (in_task t None) a = Ok v /\ q = PVal v)
  end.

(** What arrives of it *)
Definition arriving (n : nat) (pick : param -> bool) (s : sess) (t : ptask) (o q : option param) : Prop :=
  match o with
  | None => q = None
  | Some p => exists r, sent_as n s t p r /\ q = if pick r then Some r else None
  end.

(** Its value in the child *)
Definition in_child (n : nat) (s' : sess) (t : ptask) (q : param) (v : value) : Prop :=
  match q with
  | PVal w => v = w
  | PArg a => child_value n s' (in_task t None) a = Ok v
  end.

(** An argument that asks neither for the session's parameters nor for its tasks *)
Fixpoint self_contained (a : arg) : bool :=
  match a with
  | ArgKey _ _ | TaskArg (Some _) _ | ReturnArg _ _ => false
  | FuncArg _ sig _ => forallb (fun ka => self_contained (snd ka)) sig
  | PipeArg l => forallb self_contained l
  | _ => true
  end.

(** Everything a run may be given can be pickled once it is sent, and the
    functions called in the child are self-contained. *)
Definition all_cross (n : nat) (pick : param -> bool) (s : sess) (t : ptask) (passed : dict param) : Prop :=
  forall d k p, In d [request_of t; pt_own t; signature_of t; built_in t XProcess VNone; passed; ss_params s] ->
    In (k, p) d ->
    (forall q, sent_as n s t p q -> pick q = true) /\
    (forall a, p = PArg a -> late s a -> self_contained a = true).

(** * What comes back *)

(** The record of a message *)
Definition record_of (name : Z) (m : message) : record :=
  match m with
  | MPlain a t run_id => Rec name a t (Some run_id)
  | MSuccess t run_id _ => Rec name ASuccess t (Some run_id)
  end.
