(** Model of where task records are logged and read: rocketry/core/log/adapter.py (TaskAdapter), the
    logger of a task (rocketry/core/task.py:275-288, 300-303, 325-326), the methods of Session about
    loggers (rocketry/session.py:342-379, 453-516), Rocketry.__init__ (rocketry/application.py:48-55,
    82-86) and include_grouper (application.py:33-43); with what they use of Python's logging.  Warnings are
    not modelled, nor are filters, disabled loggers and logging.disable. *)
From Coq Require Import List Bool ZArith String Ascii.
From Verif Require Import Model.Base Model.Interval Model.Period Model.Condition Model.History.
Import ListNotations.
Local Open Scope Z_scope.
Local Open Scope list_scope.

(** A handler: its repository, if it is a RepoHandler, and its level.  A RepoHandler has level NOTSET. *)
Record handler : Type := Handler { h_repo : option Z; h_level : Z }.
Definition repo_handler (r : Z) : handler := Handler (Some r) 0.

(** A logger: its handlers in order, its level (0 is NOTSET), propagate, and the session whose
    time_func stamps its records (session.py:369-379), if any *)
Record logger : Type := Logger { g_handlers : list handler; g_level : Z; g_propagate : bool; g_clock : option Z }.
Definition new_logger : logger := Logger [] 0 true None.
Definition set_handlers (hs : list handler) (g : logger) : logger := Logger hs (g_level g) (g_propagate g) (g_clock g).
Definition set_level (n : Z) (g : logger) : logger := Logger (g_handlers g) n (g_propagate g) (g_clock g).
Definition set_clock (c : option Z) (g : logger) : logger := Logger (g_handlers g) (g_level g) (g_propagate g) c.

(** logging.root and logging.root.manager.loggerDict in the order of the dictionary; place holders are left out *)
Record registry : Type := Registry { reg_root : logger; reg_named : list (string * logger) }.
Fixpoint look (n : string) (ls : list (string * logger)) : option logger :=
  match ls with
  | [] => None
  | (m, g) :: ls => if String.eqb m n then Some g else look n ls
  end.
Fixpoint put (n : string) (g : logger) (ls : list (string * logger)) : list (string * logger) :=
  match ls with
  | [] => [(n, g)]
  | (m, h) :: ls => if String.eqb m n then (m, g) :: ls else (m, h) :: put n g ls
  end.
(** logging.getLogger(n): made if missing *)
Definition get_logger (n : string) (reg : registry) : logger :=
  match look n (reg_named reg) with Some g => g | None => new_logger end.
Definition change (n : string) (f : logger -> logger) (reg : registry) : registry :=
  Registry (reg_root reg) (put n (f (get_logger n reg)) (reg_named reg)).

(** The names above a name: up to the last dot, and so on *)
Fixpoint before_last_dot (s : string) : option string :=
  match s with
  | EmptyString => None
  | String c s =>
      match before_last_dot s with
      | Some p => Some (String c p)
      | None => if Ascii.eqb c "." then Some EmptyString else None
      end
  end.
Fixpoint names_up (fuel : nat) (n : string) : list string :=
  n :: match fuel with
       | O => []
       | S fuel => match before_last_dot n with Some p => names_up fuel p | None => [] end
       end.
(** The logger and its parents, which are the existing loggers of the names above, and the root *)
Definition lineage (reg : registry) (n : string) : list logger :=
  flat_map (fun m => match look m (reg_named reg) with Some g => [g] | None => [] end) (names_up (String.length n) n)
  ++ [reg_root reg].

(** Logger.getEffectiveLevel *)
Fixpoint effective (gs : list logger) : Z :=
  match gs with
  | [] => 0
  | g :: gs => if g_level g =? 0 then effective gs else g_level g
  end.
(** Logger.callHandlers: which handlers see the record *)
Fixpoint reached (gs : list logger) : list handler :=
  match gs with
  | [] => []
  | g :: gs => g_handlers g ++ (if g_propagate g then reached gs else [])
  end.

(** What the repositories hold *)
Definition stores : Type := Z -> log.
Definition add_to (r : Z) (x : record) (st : stores) : stores := fun q => if q =? r then st q ++ [x] else st q.
Definition emit (lvl : Z) (x : record) (st : stores) (h : handler) : stores :=
  match h_repo h with
  | Some r => if h_level h <=? lvl then add_to r x st else st
  | None => st
  end.
(** Logger.handle (used for records from other processes, core/task.py:1104-1127) *)
Definition handle (reg : registry) (n : string) (lvl : Z) (x : record) (st : stores) : stores :=
  fold_left (emit lvl x) (reached (lineage reg n)) st.

(** core/task.py:1179: a failure is logged with level ERROR, the others with INFO *)
Definition info : Z := 20.
Definition level_of (a : action) : Z := match a with AFail => 40 | _ => info end.
(** core/task.py:1148-1202 _set_status: Logger.info and Logger.exception look at the level first.
    The logger must exist (getLogger in the property, line 302). *)
Definition log_action (reg : registry) (n : string) (x : record) (st : stores) : stores :=
  if effective (lineage reg n) <=? level_of (r_action x) then handle reg n (level_of (r_action x)) x st else st.

(** adapter.py:93-100 _get_repo *)
Fixpoint first_repo (hs : list handler) : result Z :=
  match hs with
  | [] => Err AttributeError
  | h :: hs => match h_repo h with Some r => Ok r | None => first_repo hs end
  end.
(** adapter.py:53-59, 61-79: task.logger.get_records() *)
Definition read_task (reg : registry) (st : stores) (n : string) (task : Z) : result log :=
  let* r := first_repo (g_handlers (get_logger n reg)) in
  Ok (filter (fun x => r_task x =? task) (st r)).
(** adapter.py:140-148 is_readable *)
Definition has_repo (h : handler) : bool := match h_repo h with Some _ => true | None => false end.
Definition is_readable (g : logger) : bool := existsb has_repo (g_handlers g).

Fixpoint ends_with (s suffix : string) : bool :=
  String.eqb s suffix || match s with EmptyString => false | String _ s => ends_with s suffix end.
Definition is_private (n : string) : bool := ends_with n "_process".

(** session.py:346-367 _check_readable_logger, in the main process; [r] is the repository of the
    handler it may create *)
Definition check_readable (base : string) (r : Z) (reg : registry) : registry :=
  let reg := change base (fun g =>
    if negb (is_readable g) && negb (is_private base) then set_handlers (g_handlers g ++ [repo_handler r]) g else g) reg in
  if effective (lineage reg base) <=? info then reg else change base (set_level info) reg.

(** application.py:48-55, 82-86: Rocketry(logger_repo=r) with this task_logger_basename *)
Definition new_app (base : string) (r : Z) (reg : registry) : registry :=
  change base (fun g => set_handlers (repo_handler r :: g_handlers g) (set_level info g)) reg.

(** adapter.py:81-91 set_repo *)
Definition set_repo (base : string) (r : Z) (reg : registry) : registry :=
  change base (fun g => set_handlers (repo_handler r :: filter (fun h => negb (has_repo h)) (g_handlers g)) g) reg.

(** session.py:369-379 _wrap_log_record_creation of the session [s] *)
Definition wrap_clock (base : string) (s : Z) (has_time_func : bool) (reg : registry) : registry :=
  change base (fun g =>
    match g_clock g with
    | None => if has_time_func then set_clock (Some s) g else g
    | Some _ => g
    end) reg.

(** session.py:511-516 delete_task_loggers *)
Definition delete_loggers (base : string) (reg : registry) : registry :=
  Registry (reg_root reg) (filter (fun ng => negb (String.prefix base (fst ng))) (reg_named reg)).

(** session.py:460-488 get_task_loggers and 490-509 get_task_log (without a query) *)
Definition task_loggers (base : string) (reg : registry) : list (string * logger) :=
  filter (fun ng => String.prefix base (fst ng) && negb (is_private (fst ng))) (reg_named reg).
Fixpoint read_loggers (ls : list (string * logger)) (st : stores) : result log :=
  match ls with
  | [] => Ok []
  | (_, g) :: ls =>
      let* r := first_repo (g_handlers g) in
      let* rest := read_loggers ls st in
      Ok (st r ++ rest)
  end.
Definition get_task_log (base : string) (reg : registry) (st : stores) : result log :=
  read_loggers (task_loggers base reg) st.

(** The logger_name argument of a task, core/task.py:275-288: left out, a string or a Logger *)
Inductive name_arg : Type := NoName | NameText (n : string) | NameLogger (n : string).
Definition task_logger_name (base : string) (a : name_arg) : result string :=
  match a with
  | NameText n => Ok n
  | NoName => Ok base
  | NameLogger n => if String.prefix base n then Ok n else Err ValueError
  end.
(** A Grouper has a session of its own, with the default configuration (application.py:100-110,
    session.py:54); including it in an application leaves the loggers of its tasks as they are (33-43) *)
Definition default_base : string := "rocketry.task".
Definition group_logger_name (a : name_arg) : result string := task_logger_name default_base a.

(** What can happen in the program *)
Inductive happening : Type :=
| HApp (base : string) (r : Z)                 (* Rocketry(logger_repo=...) *)
| HCheck (base : string) (r : Z)               (* a task is created, a session is started *)
| HSetRepo (base : string) (r : Z)             (* set_repo of the task logger *)
| HAdd (n : string) (h : handler)              (* logging.getLogger(n).addHandler(h) *)
| HLevel (n : string) (lvl : Z)                (* logging.getLogger(n).setLevel(lvl) *)
| HWrap (base : string) (s : Z) (f : bool)     (* a session is started *)
| HDelete (base : string)                      (* Session(delete_existing_loggers=True) *)
| HLog (n : string) (x : record)               (* a task with the logger n logs an action *)
| HRelay (n : string) (x : record).            (* the record comes from a process of the task *)
Definition step (ev : happening) (w : registry * stores) : registry * stores :=
  let (reg, st) := w in
  match ev with
  | HApp b r => (new_app b r reg, st)
  | HCheck b r => (check_readable b r reg, st)
  | HSetRepo b r => (set_repo b r reg, st)
  | HAdd n h => (change n (fun g => set_handlers (g_handlers g ++ [h]) g) reg, st)
  | HLevel n lvl => (change n (set_level lvl) reg, st)
  | HWrap b s f => (wrap_clock b s f reg, st)
  | HDelete b => (delete_loggers b reg, st)
  | HLog n x => (change n (fun g => g) reg, log_action (change n (fun g => g) reg) n x st)
  | HRelay n x => (change n (fun g => g) reg, handle (change n (fun g => g) reg) n (level_of (r_action x)) x st)
  end.
Definition steps_of (evs : list happening) (w : registry * stores) : registry * stores :=
  fold_left (fun w ev => step ev w) evs w.
