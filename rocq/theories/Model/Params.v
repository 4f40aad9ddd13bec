(** Model of parameters and arguments:
    rocketry/core/parameters/parameters.py, rocketry/core/parameters/arguments.py,
    rocketry/args/builtin.py, rocketry/args/secret.py, and of how a run's
    keyword arguments are put together in rocketry/core/task.py and
    rocketry/tasks/func.py.

    Keys, task names, environment variables and command line words are numbers
    (interned strings).  The Config and logger arguments (args/builtin.py:115-135)
    are not modelled; pickling is in Model.Crossing. *)
From Verif Require Import Model.Base Model.World.
Open Scope Z_scope.

(** * Python dictionaries: insertion ordered, one entry per key *)

Definition dict (V : Type) : Type := list (Z * V).

Fixpoint dget {V} (k : Z) (d : dict V) : option V :=
  match d with
  | [] => None
  | (k', v) :: d => if k' =? k then Some v else dget k d
  end.
(** d[k] = v: an existing key keeps its place *)
Fixpoint dset {V} (k : Z) (v : V) (d : dict V) : dict V :=
  match d with
  | [] => [(k, v)]
  | (k', v') :: d => if k' =? k then (k', v) :: d else (k', v') :: dset k v d
  end.
(** d.update(e) *)
Definition dupdate {V} (d e : dict V) : dict V :=
  fold_left (fun d kv => dset (fst kv) (snd kv) d) e d.

(** * Values and arguments *)

(** What a parameter can be worth.  [VHidden] is the string shown in place of
    a secret (args/secret.py:11). *)
Inductive value : Type :=
| VData (n : Z)
| VHidden
| VSession
| VTask (name : Z)
| VEvent (n : Z)
| VNone.

(** The BaseArgument classes.  A default of None stands for NOTSET. *)
Inductive arg : Type :=
| SimpleArg (v : value)                                    (* args/builtin.py:23-36 *)
| ArgKey (key : Z) (default : option value)                (* args/builtin.py:38-70 Arg *)
| SessionArg (default : option value)                      (* args/builtin.py:72-90 *)
| TaskArg (name : option Z) (default : option value)       (* args/builtin.py:92-113 *)
| ReturnArg (task : Z) (default : option value)            (* args/builtin.py:136-189 *)
| FuncArg (f : Z) (sig : list (Z * arg)) (pre : option bool) (* args/builtin.py:191-260; sig: the
                                                              argument defaults in the signature;
                                                              pre: materialize == "pre" *)
| FlagArg                                                  (* args/builtin.py:262-275 TerminationFlag *)
| EnvArg (var : Z) (default : option value)                (* args/builtin.py:277-290 *)
| CliArg (word : Z) (default : option value)               (* args/builtin.py:292-313 *)
| PrivateArg (v : value)                                   (* args/secret.py:4-32 *)
| PipeArg (args : list arg).                               (* core/parameters/arguments.py:104-118 *)

(** An entry of a parameter set: a plain value or an argument. *)
Inductive param : Type :=
| PVal (v : value)
| PArg (a : arg).

(** What arguments read: the session's parameters, task names, returns
    (session.py:220), the environment, the command line, the configuration
    param_materialize == "pre" (session.py:74), the execution of a task, the
    behaviour of the user's functions, a fresh threading.Event. *)
Record sess : Type := Sess {
  ss_params : dict param;
  ss_tasks : list Z;
  ss_returns : dict value;
  ss_environ : dict value;
  ss_argv : list Z;
  ss_pre : bool;
  ss_exec : Z -> exec;
  ss_call : Z -> dict value -> result value;
  ss_event : value }.

(** The keyword arguments get_value is called with.  [SNone]: session=None. *)
Inductive sgiven : Type := SMissing | SNone | SGiven.
Record ctx : Type := Ctx { cx_task : option Z; cx_session : sgiven; cx_event : option value }.

(** session=None or missing, with the session then taken from the task:
    args/builtin.py:53-54, 170-171 (AttributeError when the task is None) *)
Definition find_session (cx : ctx) : result ctx :=
  match cx_session cx, cx_task cx with
  | SGiven, _ => Ok cx
  | _, Some t => Ok (Ctx (Some t) SGiven (cx_event cx))
  | _, None => Err AttributeError
  end.

(** except KeyError: the default, if set *)
Definition or_default (default : option value) (r : result value) : result value :=
  match r with
  | Err KeyError => match default with Some v => Ok v | None => Err KeyError end
  | r => r
  end.
Definition of_option (o : option value) : result value :=
  match o with Some v => Ok v | None => Err KeyError end.

(** core/parameters/parameters.py:213-216 get_kwargs: defaults of get_value
    that are arguments are materialised; only Task.get_value has one,
    session=Session(default=None) *)
Definition get_kwargs (cx : ctx) (a : arg) : ctx :=
  match a with
  | TaskArg _ _ =>
      match cx_session cx, cx_task cx with
      | SMissing, Some t => Ctx (Some t) SGiven (cx_event cx)
      | SMissing, None => Ctx None SNone (cx_event cx)
      | _, _ => cx
      end
  | _ => cx
  end.

(** args/builtin.py:303-313 CliArg._get_arg *)
Fixpoint cli_value (word : Z) (default : option value) (argv : list Z) : result value :=
  match argv with
  | [] => match default with Some v => Ok v | None => Err KeyError end
  | w :: argv =>
      if w =? word
      then match argv with v :: _ => Ok (VData v) | [] => Err IndexError end
      else cli_value word default argv
  end.

(** core/parameters/arguments.py:112-118 *)
Fixpoint first_value (f : arg -> result value) (l : list arg) : result value :=
  match l with
  | [] => Err KeyError
  | a :: l => match f a with Err KeyError => first_value f l | r => r end
  end.

(** core/parameters/parameters.py:100-112 materialize, on the arguments of a
    signature (50-61 _from_signature keeps only arguments) *)
Fixpoint materialize_args (f : arg -> result value) (l : list (Z * arg)) : result (dict value) :=
  match l with
  | [] => Ok []
  | (k, a) :: l => let* v := f a in let* vs := materialize_args f l in Ok ((k, v) :: vs)
  end.

(** get_value of each argument class.  [n] is how deep Python may still
    recurse; beyond that it raises RecursionError.  Returned values that are
    arguments themselves (core/parameters/parameters.py:75 on session.returns)
    do not occur. *)
Fixpoint get_value (n : nat) (s : sess) (cx : ctx) (a : arg) : result value :=
  match n with
  | O => Err RecursionError
  | S n =>
      match a with
      | SimpleArg v => Ok v
      | ArgKey key default =>                               (* 52-61 *)
          let* cx := find_session cx in
          or_default default
            (match dget key (ss_params s) with
             | None => Err KeyError
             | Some (PVal v) => Ok v
             | Some (PArg a) => get_value n s cx a
             end)
      | SessionArg default =>                               (* 78-87 *)
          match cx_session cx, cx_task cx, default with
          | SGiven, _, _ => Ok VSession
          | _, Some _, _ => Ok VSession
          | _, None, Some v => Ok v
          | _, None, None => Err TypeError
          end
      | TaskArg name default =>                             (* 99-110 *)
          match name with
          | None =>
              match cx_task cx, default with
              | Some t, _ => Ok (VTask t)
              | None, Some v => Ok v
              | None, None => Err TypeError
              end
          | Some name =>
              let find := if existsb (Z.eqb name) (ss_tasks s) then Ok (VTask name) else Err KeyError in
              match cx_session cx, cx_task cx with
              | SGiven, _ => find
              | SMissing, _ => Err TypeError                 (* a Session argument is no session *)
              | SNone, Some _ => find
              | SNone, None => Err AttributeError
              end
          end
      | ReturnArg task default =>                           (* 169-183 *)
          let* cx := find_session cx in
          if existsb (Z.eqb task) (ss_tasks s)
          then or_default default (of_option (dget task (ss_returns s)))
          else Err ValueError
      | FuncArg f sig _ =>                                  (* 241-247 *)
          let* kw := materialize_args (fun a => get_value n s (get_kwargs cx a) a) sig in
          ss_call s f kw
      | FlagArg =>                                          (* 264-269 *)
          match cx_task cx with
          | None => Err AttributeError
          | Some t =>
              match ss_exec s t with
              | XProcess | XMain => Ok (ss_event s)
              | _ => Ok (match cx_event cx with Some e => e | None => VNone end)
              end
          end
      | EnvArg var default => or_default default (of_option (dget var (ss_environ s)))   (* 284-290 *)
      | CliArg word default => cli_value word default (ss_argv s)
      | PrivateArg v => Ok (match cx_task cx with None => VHidden | Some _ => v end)  (* args/secret.py:16-20 *)
      | PipeArg l => first_value (get_value n s cx) l
      end
  end.

(** core/parameters/arguments.py:93-102 __rshift__ *)
Definition pipe_items (a : arg) : list arg := match a with PipeArg l => l | a => [a] end.
Definition rshift (a b : arg) : arg := PipeArg (pipe_items a ++ pipe_items b).

(** args/builtin.py:249-256 FuncArg.stage, core/parameters/arguments.py:49-79
    BaseArgument.stage *)
Definition stage (n : nat) (s : sess) (cx : ctx) (a : arg) : result param :=
  match a with
  | FuncArg f sig pre =>
      if (match pre with Some b => b | None => ss_pre s end)
      then let* v := get_value n s cx a in Ok (PVal v)
      else Ok (PArg a)
  | a => let* v := get_value n s cx a in Ok (PVal v)
  end.

(** * Parameter sets *)

(** core/parameters/parameters.py:36-48 __init__, 200-201 copy, 118-120 update,
    154-160 __or__.  The union is passed on as keyword arguments, so parameters
    called self, _param or type_ are taken for the constructor's own: that is
    left out here and is in Model.Naming (the two agree on all other names). *)
Definition parameters (p : dict param) : dict param := dupdate [] p.
Definition params_or (l r : dict param) : dict param := dupdate (dupdate [] l) r.

(** core/parameters/parameters.py:70-75, 83-85 __getitem__ *)
Definition no_kwargs : ctx := Ctx None SMissing None.
Definition get_item (n : nat) (s : sess) (p : dict param) (key : Z) : result value :=
  match dget key p with
  | None => Err KeyError
  | Some (PVal v) => Ok v
  | Some (PArg a) => get_value n s no_kwargs a
  end.
(** core/parameters/parameters.py:64-68 get *)
Definition get_or (n : nat) (s : sess) (p : dict param) (key : Z) (default : value) : result value :=
  match get_item n s p key with
  | Err KeyError => Ok default
  | r => r
  end.

(** core/parameters/parameters.py:100-112 materialize *)
Definition param_value (n : nat) (s : sess) (cx : ctx) (p : param) : result value :=
  match p with PVal v => Ok v | PArg a => get_value n s (get_kwargs cx a) a end.
Fixpoint materialize (n : nat) (s : sess) (cx : ctx) (d : dict param) : result (dict value) :=
  match d with
  | [] => Ok []
  | (k, p) :: d =>
      let* v := param_value n s cx p in let* vs := materialize n s cx d in Ok ((k, v) :: vs)
  end.

(** core/parameters/parameters.py:87-98 pre_materialize *)
Definition stage_param (n : nat) (s : sess) (cx : ctx) (p : param) : result param :=
  match p with PVal v => Ok (PVal v) | PArg a => stage n s cx a end.
Fixpoint pre_materialize (n : nat) (s : sess) (cx : ctx) (d : dict param) : result (dict param) :=
  match d with
  | [] => Ok []
  | (k, p) :: d =>
      let* v := stage_param n s cx p in let* vs := pre_materialize n s cx d in Ok ((k, v) :: vs)
  end.

(** * Showing parameters *)

(** What repr and str give; [TxCls a v] is the class name of [a] around the
    representation of [v]. *)
Inductive cls : Type := ClsSimple | ClsEnv | ClsCli | ClsPipe.
Inductive text : Type :=
| TxCls (c : cls) (v : value)
| TxValue (v : value)
| TxParam (key : Z)
| TxSession
| TxTask (name : option Z)
| TxReturn (task : Z) (default : option value)
| TxFunc (f : Z)
| TxFlag
| TxPrivate.

(** __repr__: core/parameters/arguments.py:86-88, args/builtin.py:66-67, 89-90,
    112-113, 185-186, 258-260, 271-272, args/secret.py:27-29 *)
Definition repr_arg (n : nat) (s : sess) (a : arg) : result text :=
  let base c := let* v := get_value n s no_kwargs a in Ok (TxCls c v) in
  match a with
  | SimpleArg _ => base ClsSimple
  | EnvArg _ _ => base ClsEnv
  | CliArg _ _ => base ClsCli
  | PipeArg _ => base ClsPipe
  | ArgKey k _ => Ok (TxParam k)
  | SessionArg _ => Ok TxSession
  | TaskArg name _ => Ok (TxTask name)
  | ReturnArg t d => Ok (TxReturn t d)
  | FuncArg f _ _ => Ok (TxFunc f)
  | FlagArg => Ok TxFlag
  | PrivateArg _ => Ok TxPrivate
  end.

(** __str__: core/parameters/arguments.py:90-91, args/builtin.py:63-64, 188-189,
    274-275, args/secret.py:31-32 *)
Definition str_arg (n : nat) (s : sess) (a : arg) : result text :=
  match a with
  | ArgKey k _ => Ok (TxParam k)
  | ReturnArg t d => Ok (TxReturn t None)
  | FlagArg => Ok TxFlag
  | PrivateArg _ => Ok TxPrivate
  | a => let* v := get_value n s no_kwargs a in Ok (TxValue v)
  end.

(** core/parameters/parameters.py:149-152 __repr__ *)
Fixpoint repr_params (n : nat) (s : sess) (d : dict param) : result (list (Z * text)) :=
  match d with
  | [] => Ok []
  | (k, p) :: d =>
      let* t := match p with PVal v => Ok (TxValue v) | PArg a => repr_arg n s a end in
      let* ts := repr_params n s d in Ok ((k, t) :: ts)
  end.

(** * The keyword arguments of a run *)

(** What a task needs to know: its own parameters (for a function task given a
    function, those of its signature are already merged in: tasks/func.py:214-217),
    the argument defaults of a delayed function's signature, the keyword
    arguments its code takes, and its class: a function task, whose function
    may be loaded later (delayed), or a task that keeps the filtering of the
    base class (core/task.py:813-832), as the command, code and maintenance
    tasks do. *)
Inductive pkind : Type := PFunc (delayed : bool) | PBase.
Record ptask : Type := PTask {
  pt_name : Z;
  pt_own : dict param;
  pt_sig : dict param;
  pt_takes : Z -> bool;
  pt_kind : pkind;
  pt_requests : list (dict param) }.

(** Keys of the built-in extras: _session_, _task_, _thread_terminate_ *)
Definition k_session : Z := -1.
Definition k_task : Z := -2.
Definition k_terminate : Z := -3.

Definition keep_taken (t : ptask) (d : dict param) : dict param :=
  filter (fun kv => pt_takes t (fst kv)) d.

(** core/utils/meta.py:9-10 kwargs.update(_params): a Parameters object is a
    mapping but no dict, so update reads each of its keys with __getitem__,
    which turns arguments to values without telling them the task *)
Fixpoint read_keys (n : nat) (s : sess) (d : dict param) (keys : list Z) : result (dict param) :=
  match keys with
  | [] => Ok []
  | k :: keys =>
      let* v := get_item n s d k in let* vs := read_keys n s d keys in Ok ((k, PVal v) :: vs)
  end.

(** core/task.py:813-832 with core/utils/meta.py:6-24; tasks/func.py:286-297 *)
Definition prefilter (n : nat) (s : sess) (t : ptask) (d : dict param) : result (dict param) :=
  match pt_kind t with
  | PFunc true => Ok d
  | PFunc false => Ok (keep_taken t d)
  | PBase => let* d := read_keys n s d (map fst d) in Ok (keep_taken t d)
  end.
(** core/task.py:834-855, tasks/func.py:299-307, tasks/command.py:101-104 *)
Definition postfilter (t : ptask) (d : dict param) : dict param :=
  match pt_kind t with PFunc true => keep_taken t d | _ => d end.

(** core/task.py:793-796 *)
Definition extras (t : ptask) (x : exec) (flag : value) : dict param :=
  let e := [(k_session, PVal VSession); (k_task, PVal (VTask (pt_name t)))] in
  match x with XThread => dset k_terminate (PVal flag) e | _ => e end.

(** core/task.py:785-801 get_extra_params; [passed]: params of start_async *)
Definition get_extra_params (n : nat) (s : sess) (t : ptask) (x : exec) (flag : value) (passed : dict param)
  : result (dict param) :=
  let* d := prefilter n s t
    (params_or (params_or (ss_params s) (parameters passed)) (extras t x flag)) in
  Ok (parameters d).

(** core/task.py:809-811 and tasks/func.py:273-284 get_task_params *)
Definition get_task_params (t : ptask) : dict param :=
  let own := parameters (pt_own t) in
  match pt_kind t with PFunc true => params_or (pt_sig t) own | _ => own end.

(** core/task.py:803-807 _get_direct_params *)
Definition direct_params (t : ptask) : dict param :=
  match pt_requests t with
  | [] => get_task_params t
  | r :: _ => dupdate (get_task_params t) r
  end.

(** core/task.py:390-411 run: the parameters of a request *)
Definition request_params (given kwargs : dict param) : dict param :=
  dupdate (dupdate [] given) kwargs.

(** core/task.py:592-595: in the run, before the task's code *)
Definition run_params (n : nat) (s : sess) (t : ptask) (params direct : dict param) : result (dict value) :=
  materialize n s (Ctx (Some (pt_name t)) SGiven None)
    (params_or (parameters (postfilter t params)) (parameters direct)).

(** The keyword arguments of a run started now ([s]) whose code begins later
    ([s']): core/task.py:482-498 (main, async), 658-665 (thread), 707-713
    (process) *)
Definition run_kwargs (n : nat) (s s' : sess) (t : ptask) (x : exec) (flag : value) (passed : dict param)
  : result (dict value) :=
  let* params := get_extra_params n s t x flag passed in
  let direct := direct_params t in
  match x with
  | XMain | XAsync => run_params n s' t params direct
  | XThread =>
      (* 661: the event is the one in params if the code takes it *)
      let* flag := match get_item n s params k_terminate with
                   | Err KeyError => Ok (ss_event s)
                   | r => r
                   end in
      let cx := Ctx (Some (pt_name t)) SGiven (Some flag) in
      let* params := pre_materialize n s cx params in
      let* direct := pre_materialize n s cx direct in
      run_params n s' t params direct
  | XProcess =>
      let cx := Ctx (Some (pt_name t)) SGiven None in
      let* params := pre_materialize n s cx params in
      let* direct := pre_materialize n s cx direct in
      run_params n s' t params direct
  end.
