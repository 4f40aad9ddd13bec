(** Model of the strings that name single conditions: rocketry/parse/_setup_cond_parsers.py,
    rocketry/parse/_condition/condition_item.py, rocketry/time/construct.py, the statements of
    rocketry/time/__init__.py, and of the functions and objects in
    rocketry/conditions/api.py (rocketry.conds) that build the same conditions.
    Strings are lists of ASCII characters. *)
From Coq Require Import List Bool Arith ZArith Ascii String.
From Verif Require Import Model.Base Model.Anchored.
From Verif Require Model.Condition Model.Depend Model.Duration.
Import ListNotations.
Local Open Scope list_scope.

Definition txt : string -> list ascii := list_ascii_of_string.

(** * Regular expressions *)

(** The parts the registered patterns are made of: a character, [(?P<g>.+)], [(?P<g>[0-9]+)],
    [(?P<g>a|b|c)] with plain alternatives, and [(a)?] (a group without a name, which is not in
    groupdict). *)
Inductive piece : Type :=
| PChar (c : ascii)
| PAny (g : string)
| PDigits (g : string)
| PAlt (g : string) (ss : list (list ascii))
| POpt (t : list ascii).
Definition pattern : Type := list piece.
Definition groups : Type := list (string * list ascii).

Definition lit (s : string) : pattern := map PChar (txt s).

(** The dot matches anything but the line feed. *)
Definition dot (c : ascii) : bool := negb (Ascii.eqb c (ascii_of_nat 10)).

Fixpoint strip_prefix (t s : list ascii) : option (list ascii) :=
  match t with
  | [] => Some s
  | c :: t => match s with
              | d :: s => if Ascii.eqb c d then strip_prefix t s else None
              | [] => None
              end
  end.

(** One or more characters, as many as the rest of the pattern allows. *)
Fixpoint greedy {A} (ok : ascii -> bool) (k : list ascii -> option A) (s : list ascii)
    : option (list ascii * A) :=
  match s with
  | [] => None
  | c :: s =>
      if ok c then
        match greedy ok k s with
        | Some (m, r) => Some (c :: m, r)
        | None => match k s with Some r => Some ([c], r) | None => None end
        end
      else None
  end.

(** The first alternative with which the rest matches. *)
Fixpoint alternatives {A} (k : list ascii -> option A) (s : list ascii) (ss : list (list ascii))
    : option (list ascii * A) :=
  match ss with
  | [] => None
  | t :: ss => match strip_prefix t s with
               | Some rest => match k rest with
                              | Some r => Some (t, r)
                              | None => alternatives k s ss
                              end
               | None => alternatives k s ss
               end
  end.

Definition put (g : string) (o : option (list ascii * groups)) : option groups :=
  match o with Some (m, r) => Some ((g, m) :: r) | None => None end.

(** Pattern.fullmatch and Match.groupdict: backtracking, the first way to match the whole string *)
Fixpoint fullmatch (p : pattern) (s : list ascii) : option groups :=
  match p with
  | [] => match s with [] => Some [] | _ => None end
  | PChar c :: p => match s with
                    | d :: s => if Ascii.eqb c d then fullmatch p s else None
                    | [] => None
                    end
  | PAny g :: p => put g (greedy dot (fullmatch p) s)
  | PDigits g :: p => put g (greedy Duration.is_digit (fullmatch p) s)
  | PAlt g ss :: p => put g (alternatives (fullmatch p) s ss)
  | POpt t :: p => match strip_prefix t s with
                   | Some rest => match fullmatch p rest with
                                  | Some r => Some r
                                  | None => fullmatch p s
                                  end
                   | None => fullmatch p s
                   end
  end.

(** A keyword argument of the call [parser( **kwargs )]; a missing one is a TypeError. *)
Fixpoint group (g : string) (gs : groups) : option (list ascii) :=
  match gs with
  | [] => None
  | (h, s) :: gs => if String.eqb h g then Some s else group g gs
  end.
Definition arg (g : string) (gs : groups) : result (list ascii) :=
  match group g gs with Some s => Ok s | None => Err TypeError end.

(** * Calls of period classes *)

(** What is called: an anchored class, TimeDelta, TimeSpanDelta or Cron.  What the call gives is
    a parameter. *)
Inductive pcall : Type :=
| TimeOf (c : acls) (start end_ : option (list ascii)) (time_point starting : bool)
| DeltaOf (past : list ascii)
| SpanOf (near far : option (list ascii))
| CronOf (args : list (list ascii)).

(** TimeSpanDelta is a subclass of TimeDelta. *)
Definition is_delta (c : pcall) : bool :=
  match c with DeltaOf _ | SpanOf _ _ => true | _ => false end.

(** * Conditions *)

(** The task conditions with a period; TaskStarted, TaskSucceeded, TaskFailed, TaskTerminated,
    TaskInacted, TaskFinished *)
Inductive action : Type := Started | Succeeded | Failed | Terminated | Inacted | Finished.

Section Conditions.
  Context {P : Type}.
  Variable make : pcall -> result P.

  (** Conditions other than combinations, with the attributes they keep.  [AWrapper] is a
      TimeCondWrapper, which stands for the condition its get_cond returns (api.py:63-73). *)
  Inductive atom : Type :=
  | AIsPeriod (p : P)
  | AExecutable (p : P)
  | ARunnable (p : P)
  | AStatus (a : action) (p : option P) (task : option (list ascii)) (c : Condition.comps)
  | ARunning (task : option (list ascii))
  | ADepend (r : Depend.relation) (depend_task : list ascii)
  | AScheduler (p : P)
  | ACycles (c : Condition.comps)
  | AEnv (e : list ascii)
  | AParam (keys : list (list ascii)) (vals : list (list ascii * list ascii))
  | AWrapper (c : acls).

  Inductive tree : Type :=
  | KTrue
  | KFalse
  | KAtom (a : atom)
  | KAny (ts : list tree)
  | KAll (ts : list tree)
  | KNot (t : tree).

  (** core/condition/base.py: Any( *conds ) and All( *conds ) where no member is itself an Any
      or an All *)
  Definition all_of (ts : list tree) : tree := KAll ts.
  Definition any_of (ts : list tree) : tree := KAny ts.

  (** conditions/time.py:31-34 IsPeriod.__init__ *)
  Definition is_period (c : pcall) : result tree :=
    let* p := make c in
    if is_delta c then Err AttributeError else Ok (KAtom (AIsPeriod p)).

  (** conditions/task/utils.py:57-60 TaskStatusMixin.__init__ *)
  Definition status_cond (a : action) (c : option pcall) (task : option (list ascii)) : result tree :=
    match c with
    | None => Ok (KAtom (AStatus a None task []))
    | Some c => let* p := make c in Ok (KAtom (AStatus a (Some p) task []))
    end.

  (** * time/construct.py *)

  (** construct.py:9-27 TIME_CLASSES (the keys the statements use; the names are lower case) *)
  Definition time_classes : list (string * acls) :=
    [("month", TMonth); ("week", TWeek); ("day", TDay); ("hour", THour); ("minute", TMinute);
     ("this month", TMonth); ("this week", TWeek); ("today", TDay); ("this hour", THour);
     ("this minute", TMinute)]%string.
  Definition time_class (s : list ascii) : result acls :=
    match find (fun kv => if list_eq_dec ascii_dec (txt (fst kv)) s then true else false) time_classes with
    | Some (_, c) => Ok c
    | None => Err KeyError
    end.

  (** The functions of a period: construct.py:30-53 get_between, get_after, get_before, get_on,
      get_full_cycle; TimeDelta; the objects [always] and [never], which cannot be called. *)
  Inductive pfunc : Type := FBetween | FAfter | FBefore | FOn | FFull | FDelta | FNotCallable.
  Definition call_period (f : pfunc) (gs : groups) : result pcall :=
    match f with
    | FBetween => let* t := arg "type_" gs in let* c := time_class t in
                  let* s := arg "start" gs in let* e := arg "end" gs in
                  Ok (TimeOf c (Some s) (Some e) false false)
    | FAfter => let* t := arg "type_" gs in let* c := time_class t in
                let* s := arg "start" gs in Ok (TimeOf c (Some s) None false false)
    | FBefore => let* t := arg "type_" gs in let* c := time_class t in
                 let* e := arg "end" gs in Ok (TimeOf c None (Some e) false false)
    | FOn => let* t := arg "type_" gs in let* c := time_class t in
             let* s := arg "start" gs in Ok (TimeOf c (Some s) None true false)
    | FFull => let* t := arg "type_" gs in let* c := time_class t in
               let s := group "start" gs in Ok (TimeOf c s s false false)
    | FDelta => let* d := arg "past" gs in Ok (DeltaOf d)
    | FNotCallable => Err TypeError
    end.

  (** * conditions/api.py *)

  (** The classes a TimeCondWrapper may build: TaskExecutable, IsPeriod, or one of the task
      conditions with its task (api.py:33-36, 118-119) *)
  Inductive wrapped : Type :=
  | WExecutable
  | WIsPeriod
  | WStatus (a : action) (task : option (list ascii)).

  (** api.py:72-73 _get_cond *)
  Definition get_cond (w : wrapped) (c : pcall) : result tree :=
    match w with
    | WExecutable => let* p := make c in Ok (KAtom (AExecutable p))
    | WIsPeriod => is_period c
    | WStatus a task => status_cond a (Some c) task
    end.

  (** api.py:38-61 between, before, after, on and at, starting; 67-70 get_cond *)
  Definition w_between (w : wrapped) (c : acls) (s e : list ascii) : result tree :=
    get_cond w (TimeOf c (Some s) (Some e) false false).
  Definition w_before (w : wrapped) (c : acls) (e : list ascii) : result tree :=
    get_cond w (TimeOf c None (Some e) false false).
  Definition w_after (w : wrapped) (c : acls) (s : list ascii) : result tree :=
    get_cond w (TimeOf c (Some s) None false false).
  Definition w_on (w : wrapped) (c : acls) (s : list ascii) : result tree :=
    get_cond w (TimeOf c (Some s) None true false).
  Definition w_starting (w : wrapped) (c : acls) (s : list ascii) : result tree :=
    get_cond w (TimeOf c (Some s) None false true).
  Definition w_whole (w : wrapped) (c : acls) : result tree :=
    get_cond w (TimeOf c None None false false).

  (** api.py:204-209 secondly, minutely, hourly, daily, weekly, monthly *)
  Definition cyclic (c : acls) : tree := KAtom (AWrapper c).

  (** api.py:221-231 every; the bases run, success, fail, finish *)
  Inductive basis : Type := OnRun | OnSuccess | OnFail | OnFinish.
  Definition every (d : list ascii) (b : basis) : result tree :=
    let zero := [(Condition.OpEq, Condition.BInt 0)] in
    let* p := make (DeltaOf d) in
    match b with
    | OnRun => Ok (KAtom (AStatus Started (Some p) None zero))
    | OnSuccess => Ok (KAtom (AStatus Succeeded (Some p) None zero))
    | OnFail => Ok (KAtom (AStatus Failed (Some p) None zero))
    | OnFinish => Ok (KAtom (AExecutable p))
    end.

  (** api.py:233-240 cron and 242-249 crontime with an expression; str.split at single blanks *)
  Fixpoint split_blank (s : list ascii) : list (list ascii) :=
    match s with
    | [] => [[]]
    | c :: s =>
        if Ascii.eqb c " "%char then [] :: split_blank s
        else match split_blank s with
             | [] => [[c]]
             | f :: fs => (c :: f) :: fs
             end
    end.
  Definition cron_args (e : list ascii) : list (list ascii) :=
    match e with [] => [] | _ => split_blank e end.
  Definition cron (e : list ascii) : result tree :=
    let* p := make (CronOf (cron_args e)) in Ok (KAtom (ARunnable p)).
  Definition crontime (e : list ascii) : result tree := is_period (CronOf (cron_args e)).

  (** api.py:254-281 after_success, after_fail, after_finish and the forms for several tasks *)
  Definition after_one (r : Depend.relation) (task : list ascii) : tree := KAtom (ADepend r task).
  Definition after_all (r : Depend.relation) (tasks : list (list ascii)) : tree :=
    all_of (map (after_one r) tasks).
  Definition after_any (r : Depend.relation) (tasks : list (list ascii)) : tree :=
    any_of (map (after_one r) tasks).

  (** api.py:298-299 scheduler_running, 301-307 scheduler_cycles; scheduler.py:31-34 from_magic
      (the ints passed are already ints) *)
  Definition scheduler_running (more_than less_than : option (list ascii)) : result tree :=
    let* p := make (SpanOf more_than less_than) in Ok (KAtom (AScheduler p)).
  Definition scheduler_cycles (more_than less_than : option Z) : tree :=
    KAtom (ACycles
      ((match more_than with Some n => [(Condition.OpGt, Condition.BInt n)] | None => [] end) ++
       (match less_than with Some n => [(Condition.OpLt, Condition.BInt n)] | None => [] end))).

  (** conditions/scheduler.py:53-55 SchedulerStarted(period=...) *)
  Definition scheduler_started (c : pcall) : result tree :=
    let* p := make c in Ok (KAtom (AScheduler p)).

  (** core/condition/base.py:195-196 Not(...) *)
  Definition negated (t : tree) : tree := KNot t.

  (** * _setup_cond_parsers.py *)

  (** The callables and the objects the statements are registered with. *)
  Inductive method : Type := MBetween | MBefore | MAfter | MStarting | MOn.
  Inductive parser : Type :=
  | QTrue | QFalse                              (* _setup.py:19-24, the objects true and false *)
  | QWrapper (c : acls)                         (* 124 the objects daily, hourly, ... *)
  | QIsPeriod (f : pfunc)                       (* 45-47 _get_is_period *)
  | QStatus (a : action)                        (* 76 the class itself *)
  | QHas (a : action) (past : bool)             (* 20-41 _from_period_task_has, 72, 83 *)
  | QScheduler (inverse : bool)                 (* 92, 95-96 *)
  | QCycles                                     (* 98-100 SchedulerCycles.from_magic *)
  | QMethod (c : acls) (m : method)             (* 128 getattr(cond, method_name) *)
  | QEvery                                      (* 133 *)
  | QCron                                       (* 136 *)
  | QRunning                                    (* 143-144 TaskRunning *)
  | QDepend (r : Depend.relation)               (* 153, 157, 161 the class itself *)
  | QDependAll (r : Depend.relation)            (* 154, 158, 162 _parse_multi_all *)
  | QDependAny (r : Depend.relation)            (* 155, 159, 163 _parse_multi_any *)
  | QEnv                                        (* 172 *)
  | QParamList                                  (* 173 ParamExists._from_list *)
  | QParamValue.                                (* 174 ParamExists._from_key_value *)

  (** _setup_cond_parsers.py:22-33 the dict of period functions; a missing span_type is None *)
  Definition span_func (span : option (list ascii)) : result pfunc :=
    match span with
    | None => Ok FFull
    | Some s =>
        if list_eq_dec ascii_dec s (txt "between") then Ok FBetween
        else if list_eq_dec ascii_dec s (txt "after") then Ok FAfter
        else if list_eq_dec ascii_dec s (txt "before") then Ok FBefore
        else if list_eq_dec ascii_dec s (txt "starting") then Ok FFull
        else if list_eq_dec ascii_dec s (txt "on") then Ok FOn
        else Err KeyError
    end.

  (** s.split(sep) with the separator of conditions/task/utils.py:23, 31: quote, comma, blank, quote *)
  Definition list_sep : list ascii := ["'"; ","; " "; "'"]%char.
  Fixpoint split_sep (fuel : nat) (acc s : list ascii) : list (list ascii) :=
    match fuel with
    | O => [acc ++ s]                           (* never reached: the fuel is the length *)
    | S fuel =>
        match strip_prefix list_sep s with
        | Some rest => acc :: split_sep fuel [] rest
        | None => match s with
                  | [] => [acc]
                  | c :: s => split_sep fuel (acc ++ [c]) s
                  end
        end
    end.
  Definition split_names (s : list ascii) : list (list ascii) := split_sep (S (length s)) [] s.

  (** conditions/parameter.py:98-100 _from_list: the string is taken for a list, of its characters *)
  Definition from_list (l : list ascii) : tree := KAtom (AParam (map (fun c => [c]) l) []).
  (** parameter.py:102-104 _from_key_value *)
  Definition from_key_value (key value : list ascii) : tree := KAtom (AParam [] [(key, value)]).

  (** condition_item.py:41-46 what becomes of the registered value *)
  Definition call (q : parser) (gs : groups) : result tree :=
    match q with
    | QTrue => Ok KTrue
    | QFalse => Ok KFalse
    | QWrapper c => Ok (cyclic c)
    | QIsPeriod f => let* c := call_period f gs in is_period c
    | QStatus a => status_cond a None (group "task" gs)
    | QHas a past =>
        let* f := if past then Ok FDelta else span_func (group "span_type" gs) in
        let* c := call_period f gs in
        status_cond a (Some c) (group "task" gs)
    | QScheduler inverse =>
        let* c := call_period FDelta gs in
        let* t := scheduler_started c in
        Ok (if inverse then negated t else t)
    | QCycles =>
        match gs with
        | [(k, n)] =>
            let op := if String.eqb k "__gt__" then Condition.OpGt
                      else if String.eqb k "__lt__" then Condition.OpLt
                      else Condition.OpEq in
            Ok (KAtom (ACycles [(op, Condition.BInt (Duration.digits n))]))
        | _ => Err TypeError                    (* the patterns have exactly one group *)
        end
    | QMethod c MBetween => let* s := arg "start" gs in let* e := arg "end" gs in
                            w_between WExecutable c s e
    | QMethod c MBefore => let* e := arg "end" gs in w_before WExecutable c e
    | QMethod c MAfter => let* s := arg "start" gs in w_after WExecutable c s
    | QMethod c MStarting => let* s := arg "start" gs in w_starting WExecutable c s
    | QMethod c MOn => let* s := arg "span" gs in w_on WExecutable c s
    | QEvery => let* d := arg "past" gs in every d OnRun
    | QCron => let* e := arg "__expr" gs in cron e
    | QRunning => Ok (KAtom (ARunning (group "task" gs)))
    | QDepend r => let* n := arg "depend_task" gs in Ok (after_one r n)
    | QDependAll r => let* n := arg "depend_tasks" gs in
                      Ok (all_of (map (after_one r) (split_names n)))
    | QDependAny r => let* n := arg "depend_tasks" gs in
                      Ok (any_of (map (after_one r) (split_names n)))
    | QEnv => let* e := arg "env" gs in Ok (KAtom (AEnv e))
    | QParamList => let* l := arg "l" gs in Ok (from_list l)
    | QParamValue => let* k := arg "key" gs in let* v := arg "value" gs in Ok (from_key_value k v)
    end.

  (** A statement is a string or a pattern. *)
  Inductive statement : Type := SText (s : list ascii) | SPat (p : pattern).
  Definition matches (st : statement) (s : list ascii) : option groups :=
    match st with
    | SPat p => fullmatch p s
    | SText t => if list_eq_dec ascii_dec t s then Some [] else None
    end.

  (** A dict keyed by statements (patterns are equal when their sources are): a new key comes
      last, an old one keeps its place. *)
  Definition piece_dec : forall a b : piece, {a = b} + {a <> b}.
  Proof. decide equality; try apply string_dec; try apply ascii_dec; repeat apply list_eq_dec;
         apply ascii_dec. Defined.
  Definition statement_dec : forall a b : statement, {a = b} + {a <> b}.
  Proof. decide equality; apply list_eq_dec; [apply ascii_dec | apply piece_dec]. Defined.
  Fixpoint set_parser (st : statement) (q : parser) (d : list (statement * parser)) :=
    match d with
    | [] => [(st, q)]
    | (st', q') :: d => if statement_dec st' st then (st', q) :: d else (st', q') :: set_parser st q d
    end.
  Definition update (d new : list (statement * parser)) : list (statement * parser) :=
    fold_left (fun d sq => set_parser (fst sq) (snd sq) d) new d.

  (** time/__init__.py:10-22 with _setup_cond_parsers.py:43-57 _set_is_period_parsing *)
  Definition type_group (names : list string) : piece := PAlt "type_" (map txt names).
  Definition time_names : list string := ["month"; "week"; "day"; "hour"; "minute"]%string.
  Definition time_statements : list (statement * parser) :=
    [(SPat (lit "time of " ++ type_group time_names :: lit " between " ++ PAny "start" :: lit " and "
              ++ [PAny "end"]), QIsPeriod FBetween);
     (SPat (lit "time of " ++ type_group time_names :: lit " after " ++ [PAny "start"]), QIsPeriod FAfter);
     (SPat (lit "time of " ++ type_group time_names :: lit " before " ++ [PAny "end"]), QIsPeriod FBefore);
     (SPat (lit "time of " ++ type_group ["month"; "week"]%string :: lit " on " ++ [PAny "start"]),
        QIsPeriod FOn);
     (SPat (lit "every " ++ [PAny "past"]), QIsPeriod FDelta);
     (SPat (lit "past " ++ [PAny "past"]), QIsPeriod FDelta);
     (SText (txt "always"), QIsPeriod FNotCallable);
     (SText (txt "never"), QIsPeriod FNotCallable)].

  (** 59-85 _set_task_has_parsing *)
  Definition span_names : list string :=
    ["this month"; "this week"; "today"; "this hour"; "this minute"]%string.
  Definition span_group (s : string) : piece := PAlt "span_type" [txt s].
  Definition has_statements (prefix : pattern) (name : string) (a : action) : list (statement * parser) :=
    let has := prefix ++ lit "has " ++ lit name in
    let when := has ++ lit " " ++ [type_group span_names] in
    [(SPat has, QStatus a);
     (SPat (when ++ lit " " ++ span_group "starting" :: lit " " ++ [PAny "start"]), QHas a false);
     (SPat (when ++ lit " " ++ span_group "between" :: lit " " ++ PAny "start" :: lit " and "
              ++ [PAny "end"]), QHas a false);
     (SPat (when ++ lit " " ++ span_group "after" :: lit " " ++ [PAny "start"]), QHas a false);
     (SPat (when ++ lit " " ++ span_group "before" :: lit " " ++ [PAny "end"]), QHas a false);
     (SPat when, QHas a false);
     (SPat (when ++ lit " " ++ span_group "on" :: lit " " ++ [PAny "start"]), QHas a false);
     (SPat (has ++ lit " " ++ POpt (txt "in ") :: lit "past " ++ [PAny "past"]), QHas a true)].
  Definition action_names : list (string * action) :=
    [("failed", Failed); ("succeeded", Succeeded); ("finished", Finished);
     ("terminated", Terminated); ("inacted", Inacted); ("started", Started)]%string.
  Definition task_prefix : pattern := lit "task '" ++ PAny "task" :: lit "' ".
  Definition task_has_statements : list (statement * parser) :=
    flat_map (fun na => has_statements [] (fst na) (snd na)
                          ++ has_statements task_prefix (fst na) (snd na)) action_names.

  (** 87-102 _set_scheduler_parsing *)
  Definition scheduler_statements : list (statement * parser) :=
    [(SPat (lit "scheduler has run over " ++ [PAny "past"]), QScheduler true);
     (SPat (lit "scheduler started " ++ PAny "past" :: lit " ago"), QScheduler false);
     (SPat (lit "scheduler has more than " ++ PDigits "__gt__" :: lit " cycles"), QCycles);
     (SPat (lit "scheduler has less than " ++ PDigits "__lt__" :: lit " cycles"), QCycles);
     (SPat (lit "scheduler has " ++ PDigits "__eq__" :: lit " cycles"), QCycles)].

  (** 104-136 _set_task_exec_parsing *)
  Definition cycle_names : list (string * acls) :=
    [("secondly", TSecond); ("minutely", TMinute); ("hourly", THour); ("daily", TDay);
     ("weekly", TWeek); ("monthly", TMonth)]%string.
  Definition cycle_statements (name : string) (c : acls) : list (statement * parser) :=
    [(SText (txt name), QWrapper c);
     (SPat (lit name ++ lit " before " ++ [PAny "end"]), QMethod c MBefore);
     (SPat (lit name ++ lit " between " ++ PAny "start" :: lit " and " ++ [PAny "end"]), QMethod c MBetween);
     (SPat (lit name ++ lit " after " ++ [PAny "start"]), QMethod c MAfter);
     (SPat (lit name ++ lit " starting " ++ [PAny "start"]), QMethod c MStarting);
     (SPat (lit name ++ lit " on " ++ [PAny "span"]), QMethod c MOn)].
  Definition exec_statements : list (statement * parser) :=
    flat_map (fun nc => cycle_statements (fst nc) (snd nc)) cycle_names ++
    [(SPat (lit "every " ++ [PAny "past"]), QEvery);
     (SPat (lit "cron " ++ [PAny "__expr"]), QCron)].

  (** 138-146 _set_task_running_parsing *)
  Definition running_statements : list (statement * parser) :=
    [(SPat (lit "while task '" ++ PAny "task" :: lit "' is running"), QRunning);
     (SPat (lit "task '" ++ PAny "task" :: lit "' is running"), QRunning)].

  (** 148-165 _set_task_pipelining_parsing *)
  Definition depend_statements (tail : pattern) (r : Depend.relation) : list (statement * parser) :=
    [(SPat (lit "after task '" ++ PAny "depend_task" :: lit "'" ++ tail), QDepend r);
     (SPat (lit "after tasks '" ++ PAny "depend_tasks" :: lit "'" ++ tail), QDependAll r);
     (SPat (lit "after any tasks '" ++ PAny "depend_tasks" :: lit "'" ++ tail), QDependAny r)].
  Definition pipelining_statements : list (statement * parser) :=
    depend_statements [POpt (txt " succeeded")] Depend.RSuccess ++
    depend_statements (lit " failed") Depend.RFailure ++
    depend_statements (lit " finished") Depend.RFinish.

  (** 167-176 _set_misc_parsing *)
  Definition misc_statements : list (statement * parser) :=
    [(SPat (lit "env '" ++ PAny "env" :: lit "'"), QEnv);
     (SPat (lit "param '" ++ PAny "l" :: lit "' exists"), QParamList);
     (SPat (lit "param '" ++ PAny "key" :: lit "' is '" ++ PAny "value" :: lit "'"), QParamValue)].

  (** _setup.py:19-24 *)
  Definition core_statements : list (statement * parser) :=
    [(SText (txt "true"), QTrue); (SText (txt "false"), QFalse);
     (SText (txt "always false"), QFalse); (SText (txt "always true"), QTrue)].

  (** 178-185 and _setup.py: all that is registered *)
  Definition cond_parsers : list (statement * parser) :=
    update [] (time_statements ++ task_has_statements ++ scheduler_statements ++ exec_statements
                 ++ running_statements ++ pipelining_statements ++ misc_statements ++ core_statements).

  (** condition_item.py:22-48 parse_condition_item *)
  Fixpoint find_parser (d : list (statement * parser)) (s : list ascii) : option (parser * groups) :=
    match d with
    | [] => None
    | (st, q) :: d => match matches st s with
                      | Some gs => Some (q, gs)
                      | None => find_parser d s
                      end
    end.
  Definition condition_item (d : list (statement * parser)) (s : list ascii) : result tree :=
    match find_parser d s with
    | Some (q, gs) => call q gs
    | None => Err ParserError
    end.

  (** The condition as one of Model/Condition.v, when the basic ones are numbered *)
  Fixpoint as_condition (num : atom -> nat) (t : tree) : Condition.cond :=
    match t with
    | KTrue => Condition.CTrue
    | KFalse => Condition.CFalse
    | KAtom a => Condition.CAtom (num a)
    | KAny ts => Condition.CAny (map (as_condition num) ts)
    | KAll ts => Condition.CAll (map (as_condition num) ts)
    | KNot t => Condition.CNot (as_condition num t)
    end.
  Definition numbered_item (num : atom -> nat) (s : list ascii) : result Condition.cond :=
    let* t := condition_item cond_parsers s in Ok (as_condition num t).
End Conditions.
Arguments atom P : clear implicits.
Arguments tree P : clear implicits.
