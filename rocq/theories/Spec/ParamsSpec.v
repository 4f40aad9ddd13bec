(** What parameters and arguments are meant to do, independently of how the
    parameter sets are put together. *)
From Verif Require Import Model.Base Model.World Model.Params.
Open Scope Z_scope.

(** * Where the value of a key comes from *)

(** A Python dictionary has one entry per key. *)
Definition one_per_key {V} (d : dict V) : Prop := NoDup (map fst d).

(** The first of some parameter sets that has the key *)
Fixpoint first_with (ds : list (dict param)) (k : Z) : option param :=
  match ds with
  | [] => None
  | d :: ds => match dget k d with Some p => Some p | None => first_with ds k end
  end.

(** The manual request first, then the task's own parameters (for a function
    loaded later also the defaults in its signature), then, if the task's code
    takes the key, the built-in extras, the parameters passed to the start and
    the session's parameters. *)
Definition built_in (t : ptask) (x : exec) (flag : value) : dict param :=
  (k_session, PVal VSession) :: (k_task, PVal (VTask (pt_name t))) ::
  match x with XThread => [(k_terminate, PVal flag)] | _ => [] end.
Definition request_of (t : ptask) : dict param := match pt_requests t with r :: _ => r | [] => [] end.
Definition signature_of (t : ptask) : dict param := match pt_kind t with PFunc true => pt_sig t | _ => [] end.
Definition chosen (s : sess) (t : ptask) (x : exec) (flag : value) (passed : dict param) (k : Z) : option param :=
  match first_with [request_of t; pt_own t; signature_of t] k with
  | Some p => Some p
  | None => if pt_takes t k then first_with [built_in t x flag; passed; ss_params s] k else None
  end.

(** The task runs a function (it does not keep the base class's filter). *)
Definition is_func (t : ptask) : Prop := pt_kind t <> PBase.

(** The event a thread is told to stop with *)
Definition stop_event (s : sess) (t : ptask) (flag : value) : value :=
  match pt_kind t with
  | PFunc true => flag
  | _ => if pt_takes t k_terminate then flag else ss_event s
  end.

(** The value a chosen parameter has for a run: threads and processes turn
    arguments to values when started ([s]), main and async runs when their
    code begins ([s']).  The value of a function materialised late is always
    obtained when the code begins. *)
Definition in_task (t : ptask) (event : option value) : ctx := Ctx (Some (pt_name t)) SGiven event.
Definition late (s : sess) (a : arg) : Prop :=
  match a with FuncArg _ _ (Some pre) => pre = false | FuncArg _ _ None => ss_pre s = false | _ => False end.
Definition worth (n : nat) (s s' : sess) (t : ptask) (x : exec) (flag : value) (p : param) (r : result value) : Prop :=
  match p with
  | PVal v => r = Ok v
  | PArg a =>
      let later := r = get_value n s' (in_task t None) a in
      let now event := r = get_value n s (in_task t event) a in
      match x with
      | XMain | XAsync => later
      | XThread => (late s a -> later) /\ (~ late s a -> now (Some (stop_event s t flag)))
      | XProcess => (late s a -> later) /\ (~ late s a -> now None)
      end
  end.

(** All the parameter sets a run is given are dictionaries. *)
Definition dictionaries (s : sess) (t : ptask) (passed : dict param) : Prop :=
  one_per_key (ss_params s) /\ one_per_key passed /\ one_per_key (pt_own t) /\ one_per_key (pt_sig t) /\
  Forall one_per_key (pt_requests t).

(** * Secrets *)

(** The argument with every secret blotted out *)
Fixpoint redact (a : arg) : arg :=
  match a with
  | PrivateArg _ => PrivateArg VNone
  | PipeArg l => PipeArg (map redact l)
  | FuncArg f sig pre => FuncArg f (map (fun ka => (fst ka, redact (snd ka))) sig) pre
  | a => a
  end.
Definition redact_param (p : param) : param := match p with PVal v => PVal v | PArg a => PArg (redact a) end.
Definition redact_all (d : dict param) : dict param := map (fun kp => (fst kp, redact_param (snd kp))) d.

(** Two parameter sets that differ in nothing but the values of secrets *)
Definition same_but_secrets (p q : dict param) : Prop := redact_all p = redact_all q.

Definition with_params (p : dict param) (s : sess) : sess :=
  Sess p (ss_tasks s) (ss_returns s) (ss_environ s) (ss_argv s) (ss_pre s) (ss_exec s) (ss_call s) (ss_event s).

(** * Pipes *)

(** How a pipe was written: arguments joined by >> in some nesting *)
Inductive pipe : Type :=
| One (a : arg)
| Then (l r : pipe).
Fixpoint written (p : pipe) : arg :=
  match p with One a => a | Then l r => rshift (written l) (written r) end.
Fixpoint members (p : pipe) : list arg :=
  match p with One a => [a] | Then l r => members l ++ members r end.
(** The arguments joined are not pipes themselves (a pipe is written with >>). *)
Definition is_pipe (a : arg) : bool := match a with PipeArg _ => true | _ => false end.
Definition plain_members (p : pipe) : Prop := forall a, In a (members p) -> is_pipe a = false.

(** The first of some outcomes that is not a missing value *)
Definition first_found (rs : list (result value)) (r : result value) : Prop :=
  exists before after,
    rs = before ++ r :: after /\ (forall x, In x before -> x = Err KeyError) /\ r <> Err KeyError.
