(** Model of what the names of parameters do to parameter sets put together
    with |: rocketry/core/parameters/parameters.py, and of the runs they are
    put together for, rocketry/core/task.py and rocketry/tasks/func.py.

    [params_or] of Model.Params is the union of the two dictionaries.  The code
    passes that union on as keyword arguments, type(self)( ** params), to a
    constructor that has parameters of its own: self, _param and type_. *)
From Coq Require Import Bool.
From Verif Require Import Model.Base Model.World Model.Params.
Open Scope Z_scope.

(** The names the constructor has for itself (parameters.py:36) *)
Definition k_self : Z := -4.
Definition k_param : Z := -5.
Definition k_type : Z := -6.

(** What Python makes of the objects given under those names: the entries
    dict.update takes from one, or the error it raises; what calling one with
    a parameter returns or raises. *)
Record objects : Type := Objects {
  ob_entries : param -> result (dict param);
  ob_call : param -> param -> result param }.

Definition is_none (p : param) : bool := match p with PVal VNone => true | _ => false end.

(** parameters.py:44-47: the comprehension over the values *)
Fixpoint call_all (ob : objects) (f : param) (d : dict param) : result (dict param) :=
  match d with
  | [] => Ok []
  | (k, p) :: d => let* q := ob_call ob f p in let* e := call_all ob f d in Ok ((k, q) :: e)
  end.

(** parameters.py:36-48 __init__ called with keyword arguments only.  A keyword
    argument called self makes the call itself a TypeError. *)
Definition init_keywords (ob : objects) (d : dict param) : result (dict param) :=
  match dget k_self d with
  | Some _ => Err TypeError
  | None =>
      let rest := filter (fun kv => negb (fst kv =? k_param) && negb (fst kv =? k_type)) d in
      let* rest :=
        match dget k_param d with
        | None => Ok rest
        | Some p => if is_none p then Ok rest else let* e := ob_entries ob p in Ok (dupdate rest e)
        end in
      match dget k_type d with
      | None => Ok rest
      | Some f => if is_none f then Ok rest else call_all ob f rest
      end
  end.

(** parameters.py:154-160 __or__ *)
Definition union (ob : objects) (l r : dict param) : result (dict param) :=
  init_keywords ob (dupdate (dupdate [] l) r).

(** core/task.py:785-801 get_extra_params *)
Definition named_extra_params (ob : objects) (n : nat) (s : sess) (t : ptask) (x : exec) (flag : value)
  (passed : dict param) : result (dict param) :=
  let* d := union ob (ss_params s) (parameters passed) in
  let* d := union ob d (extras t x flag) in
  let* d := prefilter n s t d in
  Ok (parameters d).

(** core/task.py:809-811 and tasks/func.py:273-284 get_task_params *)
Definition named_task_params (ob : objects) (t : ptask) : result (dict param) :=
  let own := parameters (pt_own t) in
  match pt_kind t with PFunc true => union ob (pt_sig t) own | _ => Ok own end.

(** core/task.py:803-807 _get_direct_params *)
Definition named_direct_params (ob : objects) (t : ptask) : result (dict param) :=
  let* d := named_task_params ob t in
  match pt_requests t with
  | [] => Ok d
  | r :: _ => Ok (dupdate d r)
  end.

(** core/task.py:592-595 *)
Definition named_run_params (ob : objects) (n : nat) (s : sess) (t : ptask) (params direct : dict param)
  : result (dict value) :=
  let* d := union ob (parameters (postfilter t params)) (parameters direct) in
  materialize n s (Ctx (Some (pt_name t)) SGiven None) d.

(** The keyword arguments of a run: as [run_kwargs] of Model.Params
    (core/task.py:482-498, 592-595, 658-665, 707-713), with the unions the code
    makes.  Line 485 makes another, for the run's identifier (what the
    identifier is then is not modelled here). *)
Definition named_kwargs (ob : objects) (n : nat) (s s' : sess) (t : ptask) (x : exec) (flag : value)
  (passed : dict param) : result (dict value) :=
  let* params := named_extra_params ob n s t x flag passed in
  let* direct := named_direct_params ob t in
  let* _ := union ob params direct in
  match x with
  | XMain | XAsync => named_run_params ob n s' t params direct
  | XThread =>
      let* flag := match get_item n s params k_terminate with
                   | Err KeyError => Ok (ss_event s)
                   | r => r
                   end in
      let cx := Ctx (Some (pt_name t)) SGiven (Some flag) in
      let* params := pre_materialize n s cx params in
      let* direct := pre_materialize n s cx direct in
      named_run_params ob n s' t params direct
  | XProcess =>
      let cx := Ctx (Some (pt_name t)) SGiven None in
      let* params := pre_materialize n s cx params in
      let* direct := pre_materialize n s cx direct in
      named_run_params ob n s' t params direct
  end.
