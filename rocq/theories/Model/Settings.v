(** Model of the settings of sessions and of the options of tasks that stand
    for them: rocketry/session.py:42-119 and 190-215, rocketry/application.py:44-69,
    rocketry/core/task.py:195-303, 483-513, 710-725, 949-952, 987-991, 1239-1242
    and rocketry/core/schedule.py:246-250.

    Both Config and Task are pydantic models: fields are looked up by name, what
    is not a field is left out (pydantic's extra = "ignore", neither class sets
    another), a value that is not of the type of its field is converted or
    refused.  What is converted into what is an oracle ([coerce]); a value that
    has the type of its field is taken as it is. *)
From Coq Require Import String.
From Verif Require Import Model.Base.
Local Open Scope string_scope.
Local Open Scope list_scope.

(** What a setting can be: None, a bool, an int, a str, a float, a timedelta (in
    microseconds), a callable, any other object *)
Inductive sval : Type :=
| VNone | VBool (b : bool) | VInt (n : Z) | VText (s : string) | VFloat (n : Z) | VTime (us : Z)
| VFun (n : Z) | VObj (n : Z).

(** A dict of settings *)
Definition settings : Type := list (string * sval).
Fixpoint sget (d : settings) (k : string) : option sval :=
  match d with
  | [] => None
  | (j, v) :: d => if String.eqb j k then Some v else sget d k
  end.
Fixpoint sset (d : settings) (k : string) (v : sval) : settings :=
  match d with
  | [] => [(k, v)]
  | (j, u) :: d => if String.eqb j k then (j, v) :: d else (j, u) :: sset d k v
  end.
Definition sdel (d : settings) (k : string) : settings := filter (fun e => negb (String.eqb (fst e) k)) d.

(** The types of fields that occur.  [KExec] is Literal['main', 'async',
    'thread', 'process'], [KWhen] is Literal['pre', 'post']. *)
Inductive kind : Type :=
| KBool | KInt | KText | KFloat | KTime | KFun | KObj | KExec | KWhen | KMaybe (k : kind).
Fixpoint fits (k : kind) (v : sval) : bool :=
  match k, v with
  | KMaybe _, VNone => true
  | KMaybe k, _ => fits k v
  | KBool, VBool _ | KInt, VInt _ | KText, VText _ | KFloat, VFloat _ | KTime, VTime _ | KFun, VFun _
  | KObj, VObj _ => true
  | KExec, VText s => existsb (String.eqb s) ["main"; "async"; "thread"; "process"]
  | KWhen, VText s => existsb (String.eqb s) ["pre"; "post"]
  | _, _ => false
  end.

(** A field: its name, type, default and whether its validators are run for the
    default too (always=True) *)
Record field : Type := Field { f_name : string; f_kind : kind; f_default : sval; f_always : bool }.

(** AlwaysFalse(), uuid and threading.Lock, objects like others *)
Definition always_false : sval := VObj 0.
Definition uuid : sval := VFun 0.
Definition lock : sval := VObj 1.
(** 30 minutes, 0.1 s *)
Definition half_an_hour : sval := VTime 1800000000.
Definition tenth : sval := VFloat 0.

(** session.py:47-76; [cpus] is cpu_count() *)
Definition config_fields (cpus : Z) : list field :=
  [Field "use_instance_naming" KBool (VBool false) false;
   Field "task_priority" KInt (VInt 0) false;
   Field "execution" (KMaybe KText) VNone true;
   Field "task_pre_exist" KText (VText "raise") false;
   Field "force_status_from_logs" KBool (VBool false) false;
   Field "task_logger_basename" KText (VText "rocketry.task") false;
   Field "scheduler_logger_basename" KText (VText "rocketry.scheduler") false;
   Field "silence_task_prerun" KBool (VBool false) false;
   Field "silence_task_logging" KBool (VBool false) false;
   Field "silence_cond_check" KBool (VBool false) false;
   Field "cycle_sleep" (KMaybe KFloat) tenth false;
   Field "debug" KBool (VBool false) false;
   Field "multilaunch" KBool (VBool false) false;
   Field "func_run_id" KFun uuid false;
   Field "max_process_count" KInt (VInt cpus) false;
   Field "tasks_as_daemon" KBool (VBool true) false;
   Field "restarting" KText (VText "replace") false;
   Field "instant_shutdown" KBool (VBool false) false;
   Field "timeout" KTime half_an_hour true;
   Field "shut_cond" (KMaybe KObj) VNone false;
   Field "cls_lock" KObj lock false;
   Field "param_materialize" KWhen (VText "post") false;
   Field "timezone" (KMaybe KObj) VNone false;
   Field "time_func" (KMaybe KFun) VNone false].

(** core/task.py:208-240, the fields that stand for settings (the others: [Registry],
    [World], [Params]) *)
Definition task_fields : list field :=
  [Field "daemon" (KMaybe KBool) VNone false;
   Field "logger_name" (KMaybe KText) VNone true;
   Field "execution" (KMaybe KExec) VNone false;
   Field "priority" KInt (VInt 0) false;
   Field "timeout" (KMaybe KTime) VNone true;
   Field "multilaunch" (KMaybe KBool) VNone false;
   Field "func_run_id" (KMaybe KFun) VNone false].

(** session.py:79-83 parse_task_execution, 85-91 parse_shut_cond.  (The other
    validators, 93-99 and the condition strings of 91, only concern values that
    are not of the type of their fields: [coerce], and C43, C51, C56.) *)
Definition config_pre (k : string) (v : sval) : sval :=
  match v with
  | VNone => if String.eqb k "execution" then VText "async" else if String.eqb k "shut_cond" then always_false else v
  | _ => v
  end.
(** core/task.py:275-289 parse_logger_name with None, [base] being the session's
    task_logger_basename.  (A logger in place of a name is left to [coerce].) *)
Definition task_pre (base : sval) (k : string) (v : sval) : sval :=
  match v with
  | VNone => if String.eqb k "logger_name" then base else v
  | _ => v
  end.
(** session.py:110-119 set_deprecated *)
Definition set_deprecated (d : settings) : settings :=
  match sget d "task_execution" with
  | Some v => sset (sdel d "task_execution") "execution" v
  | None => d
  end.

(** Sessions and tasks by number, in the order in which they are made; sessions
    hold their Config object by reference. *)
Record sworld : Type := SWorld {
  w_configs : list settings;
  w_sessions : list nat;
  w_tasks : list (nat * settings) }.
Definition no_sessions : sworld := SWorld [] [] [].

(** What Session is given as config: nothing, a dict, a Config object there is,
    anything else *)
Inductive source : Type := FromNone | FromDict (d : settings) | FromConfig (i : nat) | FromOther.

(** What a user does: make a Config object, a session, an application (with a
    session there is or else a new one), set a setting of a session, make a task,
    run an application *)
Inductive sop : Type :=
| OConfig (d : settings)
| OSession (src : source) (kw : settings)
| OApp (session : option nat) (src : source) (kw : settings)
| OSet (s : nat) (k : string) (v : sval)
| OTask (s : nat) (opts : settings)
| ORun (s : nat) (debug : bool).

Section Settings.
(** pydantic's conversion of a value (of the named field of Config, or of Task)
    that does not have the type of the field; None: it is refused *)
Context (coerce : bool -> string -> sval -> option sval) (cpus : Z).

(** The value of a field: validators that come first, then the type *)
Definition convert (of_task : bool) (pre : string -> sval -> sval) (f : field) (v : sval) : result sval :=
  let v := pre (f_name f) v in
  if fits (f_kind f) v then Ok v
  else match coerce of_task (f_name f) v with Some v => Ok v | None => Err ValueError end.
(** One field of a model being made of [d] *)
Definition make_field (of_task : bool) (pre : string -> sval -> sval) (d : settings) (f : field) : result sval :=
  match sget d (f_name f) with
  | Some v => convert of_task pre f v
  | None => if f_always f then convert of_task pre f (f_default f) else Ok (f_default f)
  end.
(** All of them (of several errors there is one report) *)
Fixpoint make (of_task : bool) (pre : string -> sval -> sval) (fs : list field) (d : settings) : result settings :=
  match fs with
  | [] => Ok []
  | f :: fs =>
      let* v := make_field of_task pre d f in
      let* r := make of_task pre fs d in
      Ok ((f_name f, v) :: r)
  end.

(** Config(dict of d) *)
Definition make_config (d : settings) : result settings :=
  make false config_pre (config_fields cpus) (set_deprecated d).

(** session.py:190-197 _get_config: the Config object (its number) and the objects
    there are then.  Two dicts with a key in common can not both be keyword
    arguments. *)
Definition get_config (w : sworld) (src : source) (kw : settings) : result (nat * list settings) :=
  let fresh d := let* c := make_config d in Ok (length (w_configs w), w_configs w ++ [c]) in
  match src with
  | FromNone => fresh kw
  | FromDict d =>
      if existsb (fun e => match sget d (fst e) with Some _ => true | None => false end) kw
      then Err TypeError else fresh (d ++ kw)
  | FromConfig i => if Nat.ltb i (length (w_configs w)) then Ok (i, w_configs w) else Err NameError
  | FromOther => Err TypeError
  end.

(** session.py:213-215, of the session's parts only the config *)
Definition make_session (w : sworld) (src : source) (kw : settings) : result sworld :=
  let* (i, cs) := get_config w src kw in
  Ok (SWorld cs (w_sessions w ++ [i]) (w_tasks w)).

(** A setting of a session *)
Definition setting (w : sworld) (s : nat) (k : string) : option sval :=
  match nth_error (w_sessions w) s with
  | Some i => match nth_error (w_configs w) i with Some c => sget c k | None => None end
  | None => None
  end.

Fixpoint update_nth {A} (i : nat) (f : A -> A) (l : list A) : list A :=
  match l, i with
  | [], _ => []
  | a :: l, O => f a :: l
  | a :: l, S i => a :: update_nth i f l
  end.

(** session.config.k = v (pydantic's __setattr__ with validate_assignment,
    session.py:43-45): what is not a field is refused.  (set_deprecated is run
    too, with nothing to do.) *)
Definition assign (w : sworld) (s : nat) (k : string) (v : sval) : result sworld :=
  match nth_error (w_sessions w) s with
  | None => Err NameError
  | Some i =>
      match find (fun f => String.eqb (f_name f) k) (config_fields cpus) with
      | None => Err ValueError
      | Some f =>
          let* v := convert false config_pre f v in
          Ok (SWorld (update_nth i (fun c => sset c k v) (w_configs w)) (w_sessions w) (w_tasks w))
      end
  end.

(** core/task.py:305-333, of the task's parts only those that stand for settings *)
Definition make_task (w : sworld) (s : nat) (opts : settings) : result sworld :=
  match setting w s "task_logger_basename" with
  | None => Err NameError
  | Some base =>
      let* t := make true (task_pre base) task_fields opts in
      Ok (SWorld (w_configs w) (w_sessions w) (w_tasks w ++ [(s, t)]))
  end.

(** One thing done; NameError: a session or Config object that is not there is
    named (nothing in the code corresponds) *)
Definition sstep (w : sworld) (o : sop) : result sworld :=
  match o with
  | OConfig d => let* c := make_config d in Ok (SWorld (w_configs w ++ [c]) (w_sessions w) (w_tasks w))
  | OSession src kw => make_session w src kw
  | OApp (Some s) _ _ =>                       (* application.py:49: kwargs are not looked at *)
      if Nat.ltb s (length (w_sessions w)) then Ok w else Err NameError
  | OApp None src kw => make_session w src kw
  | OSet s k v => assign w s k v
  | OTask s opts => make_task w s opts
  | ORun s debug => assign w s "debug" (VBool debug)   (* application.py:57-66 *)
  end.
(** An error leaves things as they were. *)
Definition sdone (w : sworld) (o : sop) : sworld := match sstep w o with Ok w => w | Err _ => w end.
Definition sdo (w : sworld) (ops : list sop) : sworld := fold_left sdone ops w.
End Settings.

(** * What tasks go by *)

(** An option of a task *)
Definition own (t : nat * settings) (k : string) : sval :=
  match sget (snd t) k with Some v => v | None => VNone end.
Definition or_setting (w : sworld) (t : nat * settings) (v : sval) (k : string) : option sval :=
  match v with VNone => setting w (fst t) k | _ => Some v end.

(** core/task.py:1239-1242 get_execution *)
Definition task_execution (w : sworld) (t : nat * settings) : option sval := or_setting w t (own t "execution") "execution".
(** core/schedule.py:246-250 *)
Definition task_multilaunch (w : sworld) (t : nat * settings) : option sval := or_setting w t (own t "multilaunch") "multilaunch".
(** core/task.py:718 *)
Definition task_daemon (w : sworld) (t : nat * settings) : option sval := or_setting w t (own t "daemon") "tasks_as_daemon".
(** core/task.py:949-952 *)
Definition task_run_id (w : sworld) (t : nat * settings) : option sval := or_setting w t (own t "func_run_id") "func_run_id".
(** core/task.py:989: a timedelta of no time is false *)
Definition task_timeout (w : sworld) (t : nat * settings) : option sval :=
  match own t "timeout" with
  | VNone | VTime 0 => setting w (fst t) "timeout"
  | v => Some v
  end.
(** core/task.py:226; core/schedule.py:95-100 sorts by task.priority *)
Definition task_priority (w : sworld) (t : nat * settings) : option sval := Some (own t "priority").
(** core/task.py:300-303 *)
Definition task_logger (w : sworld) (t : nat * settings) : option sval := Some (own t "logger_name").

(** core/task.py:483-513: what calling the task does with its execution.  There is
    no other branch: with any other text nothing is started and nothing raised. *)
Inductive called : Type := CMain | CAsync | CProcess | CThread | CNothing.
Definition call (e : sval) : called :=
  match e with
  | VText s =>
      if String.eqb s "main" then CMain else if String.eqb s "async" then CAsync
      else if String.eqb s "process" then CProcess else if String.eqb s "thread" then CThread else CNothing
  | _ => CNothing
  end.
