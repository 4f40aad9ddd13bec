(** Model of the conditions users make from functions and of their strings:
    rocketry/conditions/func.py (FuncCond), rocketry/conditions/meta.py (TaskCond),
    rocketry/parse/utils/cond.py (CondParser), rocketry/parse/_condition/condition_item.py with
    the parsers of a session (session.py:221, 398-400), and of the conditions on session
    parameters, rocketry/conditions/parameter.py.  Strings are lists of ASCII characters. *)
From Coq Require Import List Bool ZArith Ascii String.
From Verif Require Import Model.Base Model.Statement.
From Verif Require Model.Params Model.Period Model.Condition.
Import ListNotations.
Local Open Scope list_scope.

(** * Calling a Python function *)

Section Calls.
  Context {V A : Type}.

  (** A parameter of a function without a default, with a plain one, or with an argument
      (BaseArgument) for default.  Functions have neither star parameters nor parameters that are
      only positional or only keywords. *)
  Inductive pdefault : Type := Required | Plain (v : V) | FromArg (a : A).
  Definition signature : Type := list (string * pdefault).

  Fixpoint keyword (k : string) (kw : list (string * V)) : option V :=
    match kw with
    | [] => None
    | (k', v) :: kw => if String.eqb k' k then Some v else keyword k kw
    end.
  Definition is_param (sig : signature) (k : string) : bool := existsb (fun p => String.eqb (fst p) k) sig.

  Variable as_value : A -> V.                   (* an argument passed on as it is *)

  (** Binding positional and keyword arguments to the parameters; a TypeError when one is missing,
      given twice or unknown *)
  Fixpoint bind_params (sig : signature) (args : list V) (kw : list (string * V))
      : result (list (string * V)) :=
    match sig with
    | [] => match args with [] => Ok [] | _ => Err TypeError end
    | (k, d) :: sig =>
        match args with
        | v :: args =>
            match keyword k kw with
            | Some _ => Err TypeError
            | None => let* rest := bind_params sig args kw in Ok ((k, v) :: rest)
            end
        | [] =>
            let* v := match keyword k kw with
                      | Some v => Ok v
                      | None => match d with
                                | Required => Err TypeError
                                | Plain v => Ok v
                                | FromArg a => Ok (as_value a)
                                end
                      end in
            let* rest := bind_params sig [] kw in
            Ok ((k, v) :: rest)
        end
    end.
  Definition bind_call (sig : signature) (args : list V) (kw : list (string * V))
      : result (list (string * V)) :=
    if forallb (fun kv => is_param sig (fst kv)) kw then bind_params sig args kw else Err TypeError.

  (** * FuncCond *)

  (** The value of an argument, when it is looked at for a task and a session *)
  Variable resolve : A -> result V.

  (** core/parameters/parameters.py:50-61 _from_signature and 100-112 materialize *)
  Fixpoint signature_params (sig : signature) : result (list (string * V)) :=
    match sig with
    | [] => Ok []
    | (k, FromArg a) :: sig =>
        let* v := resolve a in let* rest := signature_params sig in Ok ((k, v) :: rest)
    | _ :: sig => signature_params sig
    end.

  (** func.py:61-77: the function (its signature and what it does with its arguments), the
      positional and the keyword arguments it was recreated with *)
  Record func_cond : Type := FuncCond {
    fc_sig : signature;
    fc_body : list (string * V) -> result bool;
    fc_args : list V;
    fc_kwargs : list (string * V) }.

  (** func.py:79-84 _recreate *)
  Definition recreate (c : func_cond) (args : list V) (kw : list (string * V)) : func_cond :=
    FuncCond (fc_sig c) (fc_body c) args kw.

  (** Calling with two sets of keyword arguments: a TypeError when a name is in both *)
  Definition merge_kwargs (a b : list (string * V)) : result (list (string * V)) :=
    if existsb (fun kv => match keyword (fst kv) a with Some _ => true | None => false end) b
    then Err TypeError else Ok (a ++ b).

  (** func.py:101-107 observe and get_state; the result is taken for true or false *)
  Definition observe_func (c : func_cond) : result bool :=
    let* ps := signature_params (fc_sig c) in
    let* kw := merge_kwargs (fc_kwargs c) ps in
    let* bound := bind_call (fc_sig c) (fc_args c) kw in
    fc_body c bound.

  (** func.py:98-99 __bool__ *)
  Definition bool_func (c : func_cond) : result bool :=
    let* bound := bind_call (fc_sig c) (fc_args c) (fc_kwargs c) in
    fc_body c bound.
End Calls.
Arguments pdefault V A : clear implicits.
Arguments signature V A : clear implicits.
Arguments func_cond V A : clear implicits.

(** * The parsers of a session *)

Section Parsers.
  Context {P V A : Type}.
  Variable make : pcall -> result P.
  Variable of_text : list ascii -> V.           (* the text of a group as a value *)

  (** A TaskCond: its function by name (meta.py:137-144) *)
  Record task_cond : Type := TaskCond { tc_func : string }.

  (** What a statement may be registered with: a built-in (Model/Statement.v), _recreate of a
      FuncCond (func.py:109-115), a CondParser around _set_task of a TaskCond (meta.py:133-135) *)
  Inductive entry : Type :=
  | Builtin (q : parser)
  | Recreate (c : func_cond V A)
  | SetTask (t : task_cond).

  (** Conditions that come out: a TaskCond has its task (by name) and the task's parameters. *)
  Inductive made : Type :=
  | MTree (t : tree P)
  | MFunc (c : func_cond V A)
  | MTask (name : string) (params : list (string * V)).

  (** session.py:221-222: the parsers, the conditions cached by text; the names of the tasks *)
  Record csession : Type := CSession {
    cs_parsers : list (statement * entry);
    cs_cache : list (list ascii * made);
    cs_tasks : list string }.

  Fixpoint set_entry (st : statement) (e : entry) (d : list (statement * entry)) :=
    match d with
    | [] => [(st, e)]
    | (st', e') :: d => if statement_dec st' st then (st', e) :: d else (st', e') :: set_entry st e d
    end.
  (** func.py:109-115 _set_parsing with one syntax *)
  Definition register (st : statement) (e : entry) (s : csession) : csession :=
    CSession (set_entry st e (cs_parsers s)) (cs_cache s) (cs_tasks s).
  (** session.py:221 _cls_cond_parsers.copy() *)
  Definition new_session : csession :=
    CSession (map (fun sq => (fst sq, Builtin (snd sq))) cond_parsers) [] [].

  Fixpoint find_entry (d : list (statement * entry)) (s : list ascii) : option (entry * groups) :=
    match d with
    | [] => None
    | (st, e) :: d => match matches st s with
                      | Some gs => Some (e, gs)
                      | None => find_entry d s
                      end
    end.
  Fixpoint cached (s : list ascii) (l : list (list ascii * made)) : option made :=
    match l with
    | [] => None
    | (t, c) :: l => if list_eq_dec ascii_dec t s then Some c else cached s l
    end.
  Definition kwargs_of (gs : groups) : list (string * V) := map (fun kv => (fst kv, of_text (snd kv))) gs.

  (** meta.py:100-113 _set_task: the task is called after the function; with the default
      task_pre_exist a name that exists is a ValueError (session.py:51) *)
  Definition task_name (t : task_cond) : string := ("_condition-" ++ tc_func t)%string.
  Definition set_task (t : task_cond) (gs : groups) (s : csession) : csession * result made :=
    if existsb (String.eqb (task_name t)) (cs_tasks s) then (s, Err ValueError)
    else (CSession (cs_parsers s) (cs_cache s) (task_name t :: cs_tasks s),
          Ok (MTask (task_name t) (kwargs_of gs))).

  (** condition_item.py:22-48 parse_condition_item; cond.py:11-19 CondParser.__call__ *)
  Definition parse_item (text : list ascii) (s : csession) : csession * result made :=
    match find_entry (cs_parsers s) text with
    | None => (s, Err ParserError)
    | Some (Builtin q, gs) => (s, let* t := call make q gs in Ok (MTree t))
    | Some (Recreate c, gs) => (s, Ok (MFunc (recreate c [] (kwargs_of gs))))
    | Some (SetTask t, gs) =>
        match cached text (cs_cache s) with
        | Some c => (s, Ok c)
        | None =>
            match set_task t gs s with
            | (s', Ok c) => (CSession (cs_parsers s') ((text, c) :: cs_cache s') (cs_tasks s'), Ok c)
            | (s', Err x) => (s', Err x)
            end
        end
    end.

  (** What an item of a condition string stands for, when the conditions that are not combinations
      are numbered.  (The string's items are parsed one after the other; for built-in conditions
      and FuncConds this leaves the session as it is.) *)
  Definition session_item (num : atom P -> nat) (num_func : func_cond V A -> nat)
      (num_task : string -> list (string * V) -> nat) (s : csession) (text : list ascii)
      : result Condition.cond :=
    match snd (parse_item text s) with
    | Ok (MTree t) => Ok (as_condition num t)
    | Ok (MFunc c) => Ok (Condition.CAtom (num_func c))
    | Ok (MTask name params) => Ok (Condition.CAtom (num_task name params))
    | Err x => Err x
    end.
End Parsers.
Arguments entry V A : clear implicits.
Arguments made P V A : clear implicits.
Arguments csession P V A : clear implicits.

(** * TaskCond: the state *)

(** What the session and the log keep of the task of a condition: _cond_states (session.py:223)
    and last_success (core/task.py) *)
Record check_state : Type := CheckState { ck_value : option bool; ck_success : option Z }.

(** A run of the task: it returned a value, which is kept (meta.py:19-21 _handle_return, called in
    core/task.py:646-648 or core/schedule.py:282-287), and its success was recorded; the record
    failed; or there was no success.  Returned values are truth values. *)
Inductive check : Type := Checked (time : Z) (v : bool) | Unrecorded (v : bool) | NotChecked.
Definition check_step (s : check_state) (c : check) : check_state :=
  match c with
  | Checked t v => CheckState (Some v) (Some t)
  | Unrecorded v => CheckState (Some v) (ck_success s)
  | NotChecked => s
  end.
(** A new process: _cond_states is empty (session.py:223), last_success is read from the log. *)
Definition restarted (s : check_state) : check_state := CheckState None (ck_success s).

(** meta.py:120-131 get_state with the active_time [p], at the moment [now] *)
Definition task_cond_state (fuel : nat) (p : Period.tperiod) (now : Z) (s : check_state) : outcome bool :=
  let task_state := match ck_value s with Some v => v | None => false end in
  let active_time := Period.use_reference p now in
  match ck_success s with
  | None => Returns task_state
  | Some t => Period.obind (Period.pcontains fuel active_time t)
                (fun inside => Returns (if negb inside then false else task_state))
  end.

(** meta.py:133-135 _set_parsing uses self.session: the class attribute (_base.py:8, None unless
    some code has set it) until the instance has its own.  81-98 __init__ with the function calls it
    before its session is set, 115-118 __call__ after.  Results: the default session and the given
    one. *)
Section Constructor.
  Context {P V A : Type}.
  Definition task_cond_init (func_given : bool) (st : statement) (t : task_cond)
      (default : option (csession P V A)) (given : csession P V A)
      : option (csession P V A) * csession P V A * result unit :=
    if func_given then
      match default with
      | None => (default, given, Err AttributeError)
      | Some d => (Some (register st (SetTask t) d), given, Ok tt)
      end
    else (default, given, Ok tt).
  Definition task_cond_call (st : statement) (t : task_cond) (given : csession P V A)
      : csession P V A := register st (SetTask t) given.
End Constructor.

(** * Conditions on the parameters of the session *)

(** conditions/parameter.py:39-40 IsEnv.get_state; [key] is the name env *)
Definition is_env (n : nat) (s : Params.sess) (key : Z) (same : Params.value -> bool) : result bool :=
  let* v := Params.get_or n s (Params.ss_params s) key Params.VNone in Ok (same v).

(** [key in params]: collections.abc.Mapping.__contains__, which looks the key up and takes a
    KeyError for no (core/parameters/parameters.py:15) *)
Definition in_params (n : nat) (s : Params.sess) (key : Z) : result bool :=
  match Params.get_item n s (Params.ss_params s) key with
  | Ok _ => Ok true
  | Err KeyError => Ok false
  | Err x => Err x
  end.
(** parameter.py:85-96 ParamExists.__bool__; [differs] is != *)
Fixpoint has_keys (n : nat) (s : Params.sess) (keys : list Z) : result bool :=
  match keys with
  | [] => Ok true
  | k :: keys => let* b := in_params n s k in if negb b then Ok false else has_keys n s keys
  end.
Fixpoint has_values (n : nat) (s : Params.sess) (differs : Params.value -> Params.value -> bool)
    (vals : list (Z * Params.value)) : result bool :=
  match vals with
  | [] => Ok true
  | (k, v) :: vals =>
      let* b := in_params n s k in
      if negb b then Ok false else
      let* w := Params.get_item n s (Params.ss_params s) k in
      if differs w v then Ok false else has_values n s differs vals
  end.
Definition param_bool (n : nat) (s : Params.sess) (differs : Params.value -> Params.value -> bool)
    (keys : list Z) (vals : list (Z * Params.value)) : result bool :=
  let* b := has_keys n s keys in if negb b then Ok false else has_values n s differs vals.

(** What observe gives, None or a truth value, and what is made of it *)
Inductive observed : Type := ONone | OBool (b : bool).
Definition truth (o : observed) : bool := match o with ONone => false | OBool b => b end.
(** core/condition/base.py:63-67 observe, 73-78 the abstract get_state, which ParamExists does not
    override and which returns None *)
Definition param_observe (keys : list Z) (vals : list (Z * Params.value)) : result observed := Ok ONone.
