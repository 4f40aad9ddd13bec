(** The sentences that name a condition, and the call of the API each of them stands for. *)
From Coq Require Import List Ascii String ZArith.
From Verif Require Import Model.Base Model.Anchored Model.Statement.
From Verif Require Model.Depend Model.Condition.
Import ListNotations.
Local Open Scope list_scope.

Definition quote : ascii := "'"%char.
Definition line_feed : ascii := ascii_of_nat 10.

(** A name or an argument: some characters, without quotes and line feeds. *)
Definition word (x : list ascii) : Prop := x <> [] /\ ~ In quote x /\ ~ In line_feed x.

(** The text, read after a blank, has no word [and] followed by a blank. *)
Definition no_and (x : list ascii) : Prop := forall pre post, " "%char :: x <> pre ++ txt " and " ++ post.

(** Decimal numbers. *)
Definition digit_of (c : ascii) (n : Z) : Prop := c = ascii_of_nat (48 + Z.to_nat n) /\ (0 <= n <= 9)%Z.
Inductive number : list ascii -> Z -> Prop :=
| number_one : forall c n, digit_of c n -> number [c] n
| number_more : forall s m c n, number s m -> digit_of c n -> number (s ++ [c]) (10 * m + n)%Z.

(** The words for the cycles, the spans and what may have happened to a task. *)
Definition cycle_word (w : string) (c : acls) : Prop :=
  In (w, c) [("secondly", TSecond); ("minutely", TMinute); ("hourly", THour);
             ("daily", TDay); ("weekly", TWeek); ("monthly", TMonth)]%string.
Definition unit_word (w : string) (c : acls) : Prop :=
  In (w, c) [("month", TMonth); ("week", TWeek); ("day", TDay); ("hour", THour);
             ("minute", TMinute)]%string.
Definition span_word (w : string) (c : acls) : Prop :=
  In (w, c) [("this month", TMonth); ("this week", TWeek); ("today", TDay); ("this hour", THour);
             ("this minute", TMinute)]%string.
Definition action_word (w : string) (a : action) : Prop :=
  In (w, a) [("started", Started); ("succeeded", Succeeded); ("failed", Failed);
             ("terminated", Terminated); ("inacted", Inacted); ("finished", Finished)]%string.
Definition outcome_word (w : string) (r : Depend.relation) : Prop :=
  In (w, r) [("", Depend.RSuccess); (" succeeded", Depend.RSuccess); (" failed", Depend.RFailure);
             (" finished", Depend.RFinish)]%string.

(** Whose past is asked about: the task of the condition itself, or a named one. *)
Definition subject (task : option (list ascii)) : list ascii :=
  match task with None => [] | Some n => txt "task '" ++ n ++ txt "' " end.
Definition proper_subject (task : option (list ascii)) : Prop :=
  match task with None => True | Some n => word n end.

(** Names written one after the other, with a comma in between. *)
Fixpoint listed (names : list (list ascii)) : list ascii :=
  match names with
  | [] => []
  | [n] => n
  | n :: names => n ++ txt "', '" ++ listed names
  end.

Section Sentences.
  Context {P : Type}.
  (** What calling a class of periods gives. *)
  Variable make : pcall -> result P.

  (** Sentences and the calls: [daily.between(s, e)], [time_of_day.after(s)], [every(d)],
      [cron(e)], [succeeded(n).today.before(e)], [TaskFailed(task=n)], [after_success(n)],
      [after_all_fail(n1, n2)], [TaskRunning(task=n)], [scheduler_cycles(more_than=n)],
      [SchedulerStarted(period=TimeDelta(d))] and so on. *)
  Inductive says : list ascii -> result (tree P) -> Prop :=
  | say_true : says (txt "true") (Ok KTrue)
  | say_always_true : says (txt "always true") (Ok KTrue)
  | say_false : says (txt "false") (Ok KFalse)
  | say_always_false : says (txt "always false") (Ok KFalse)
  (* once in a cycle *)
  | say_cycle : forall w c, cycle_word w c -> says (txt w) (Ok (cyclic c))
  | say_cycle_between : forall w c s e, cycle_word w c -> word s -> word e -> no_and e ->
      says (txt w ++ txt " between " ++ s ++ txt " and " ++ e) (w_between make WExecutable c s e)
  | say_cycle_before : forall w c e, cycle_word w c -> word e ->
      says (txt w ++ txt " before " ++ e) (w_before make WExecutable c e)
  | say_cycle_after : forall w c s, cycle_word w c -> word s ->
      says (txt w ++ txt " after " ++ s) (w_after make WExecutable c s)
  | say_cycle_starting : forall w c s, cycle_word w c -> word s ->
      says (txt w ++ txt " starting " ++ s) (w_starting make WExecutable c s)
  | say_cycle_on : forall w c s, cycle_word w c -> word s ->
      says (txt w ++ txt " on " ++ s) (w_on make WExecutable c s)
  | say_every : forall d, word d -> says (txt "every " ++ d) (every make d OnRun)
  | say_cron : forall e, word e -> says (txt "cron " ++ e) (cron make e)
  (* the time of the clock *)
  | say_time_between : forall w c s e, unit_word w c -> word s -> word e -> no_and e ->
      says (txt "time of " ++ txt w ++ txt " between " ++ s ++ txt " and " ++ e)
        (w_between make WIsPeriod c s e)
  | say_time_after : forall w c s, unit_word w c -> word s ->
      says (txt "time of " ++ txt w ++ txt " after " ++ s) (w_after make WIsPeriod c s)
  | say_time_before : forall w c e, unit_word w c -> word e ->
      says (txt "time of " ++ txt w ++ txt " before " ++ e) (w_before make WIsPeriod c e)
  | say_time_on : forall w c s, unit_word w c -> c = TMonth \/ c = TWeek -> word s ->
      says (txt "time of " ++ txt w ++ txt " on " ++ s) (w_on make WIsPeriod c s)
  (* what has happened to a task *)
  | say_has : forall task w a, proper_subject task -> action_word w a ->
      says (subject task ++ txt "has " ++ txt w) (status_cond make a None task)
  | say_has_span : forall task w a v c, proper_subject task -> action_word w a -> span_word v c ->
      says (subject task ++ txt "has " ++ txt w ++ txt " " ++ txt v)
        (w_whole make (WStatus a task) c)
  | say_has_between : forall task w a v c s e, proper_subject task -> action_word w a ->
      span_word v c -> word s -> word e -> no_and e ->
      says (subject task ++ txt "has " ++ txt w ++ txt " " ++ txt v ++ txt " between " ++ s ++ txt " and " ++ e)
        (w_between make (WStatus a task) c s e)
  | say_has_after : forall task w a v c s, proper_subject task -> action_word w a ->
      span_word v c -> word s ->
      says (subject task ++ txt "has " ++ txt w ++ txt " " ++ txt v ++ txt " after " ++ s)
        (w_after make (WStatus a task) c s)
  | say_has_before : forall task w a v c e, proper_subject task -> action_word w a ->
      span_word v c -> word e ->
      says (subject task ++ txt "has " ++ txt w ++ txt " " ++ txt v ++ txt " before " ++ e)
        (w_before make (WStatus a task) c e)
  | say_has_on : forall task w a v c s, proper_subject task -> action_word w a ->
      span_word v c -> word s ->
      says (subject task ++ txt "has " ++ txt w ++ txt " " ++ txt v ++ txt " on " ++ s)
        (w_on make (WStatus a task) c s)
  | say_has_past : forall task w a d, proper_subject task -> action_word w a -> word d ->
      says (subject task ++ txt "has " ++ txt w ++ txt " past " ++ d)
        (status_cond make a (Some (DeltaOf d)) task)
  | say_has_in_past : forall task w a d, proper_subject task -> action_word w a -> word d ->
      says (subject task ++ txt "has " ++ txt w ++ txt " in past " ++ d)
        (status_cond make a (Some (DeltaOf d)) task)
  | say_running : forall n, word n ->
      says (txt "task '" ++ n ++ txt "' is running") (Ok (KAtom (ARunning (Some n))))
  | say_while_running : forall n, word n ->
      says (txt "while task '" ++ n ++ txt "' is running") (Ok (KAtom (ARunning (Some n))))
  (* after other tasks *)
  | say_after : forall n w r, word n -> outcome_word w r ->
      says (txt "after task '" ++ n ++ txt "'" ++ txt w) (Ok (after_one r n))
  | say_after_all : forall ns w r, ns <> [] -> (forall n, In n ns -> word n) -> outcome_word w r ->
      says (txt "after tasks '" ++ listed ns ++ txt "'" ++ txt w) (Ok (after_all r ns))
  | say_after_any : forall ns w r, ns <> [] -> (forall n, In n ns -> word n) -> outcome_word w r ->
      says (txt "after any tasks '" ++ listed ns ++ txt "'" ++ txt w) (Ok (after_any r ns))
  (* the scheduler and the session *)
  | say_more_cycles : forall s n, number s n ->
      says (txt "scheduler has more than " ++ s ++ txt " cycles") (Ok (scheduler_cycles (Some n) None))
  | say_less_cycles : forall s n, number s n ->
      says (txt "scheduler has less than " ++ s ++ txt " cycles") (Ok (scheduler_cycles None (Some n)))
  | say_cycles : forall s n, number s n ->
      says (txt "scheduler has " ++ s ++ txt " cycles")
        (Ok (KAtom (ACycles [(Condition.OpEq, Condition.BInt n)])))
  | say_started : forall d, word d ->
      says (txt "scheduler started " ++ d ++ txt " ago") (scheduler_started make (DeltaOf d))
  | say_run_over : forall d, word d ->
      says (txt "scheduler has run over " ++ d)
        (let* t := scheduler_started make (DeltaOf d) in Ok (negated t))
  | say_env : forall e, word e -> says (txt "env '" ++ e ++ txt "'") (Ok (KAtom (AEnv e)))
  | say_param : forall k v, word k -> word v ->
      says (txt "param '" ++ k ++ txt "' is '" ++ v ++ txt "'") (Ok (KAtom (AParam [] [(k, v)]))).
End Sentences.

(** How every sentence begins. *)
Definition openings : list string :=
  ["true"; "false"; "always"; "never"; "secondly"; "minutely"; "hourly"; "daily"; "weekly"; "monthly";
   "every "; "past "; "cron "; "time of "; "has "; "task '"; "while task '"; "after task";
   "after any tasks '"; "scheduler "; "env '"; "param '"]%string.

(** Periods made with the classes of fixed periods from values that are read in some way. *)
Definition fixed_periods (value : list ascii -> aval) (c : pcall) : result anchored :=
  match c with
  | TimeOf c s e time_point starting =>
      mk_anchored c (option_map value s) (option_map value e) time_point starting false
  | _ => Err ValueError
  end.

(** The texts that have the form of a sentence, with any names and arguments (possibly with
    quotes in them). *)
Definition some_text (x : list ascii) : Prop := x <> [] /\ ~ In line_feed x.
Definition any_subject (task : option (list ascii)) : Prop :=
  match task with None => True | Some n => some_text n end.
Definition digits_only (x : list ascii) : Prop := x <> [] /\ forall c, In c x -> exists n, digit_of c n.
Inductive sentence : list ascii -> Prop :=
| sen_constant : forall w,
    In w ["true"; "false"; "always true"; "always false"; "always"; "never"]%string -> sentence (txt w)
| sen_free : forall w x, In w ["every "; "past "; "cron "; "scheduler has run over "]%string ->
    some_text x -> sentence (txt w ++ x)
| sen_cycle : forall w c, cycle_word w c -> sentence (txt w)
| sen_cycle_between : forall w c s e, cycle_word w c -> some_text s -> some_text e ->
    sentence (txt w ++ txt " between " ++ s ++ txt " and " ++ e)
| sen_cycle_at : forall w c v x, cycle_word w c ->
    In v [" before "; " after "; " starting "; " on "]%string -> some_text x ->
    sentence (txt w ++ txt v ++ x)
| sen_time_between : forall w c s e, unit_word w c -> some_text s -> some_text e ->
    sentence (txt "time of " ++ txt w ++ txt " between " ++ s ++ txt " and " ++ e)
| sen_time_at : forall w c v x, unit_word w c -> In v [" before "; " after "]%string -> some_text x ->
    sentence (txt "time of " ++ txt w ++ txt v ++ x)
| sen_time_on : forall w c x, unit_word w c -> c = TMonth \/ c = TWeek -> some_text x ->
    sentence (txt "time of " ++ txt w ++ txt " on " ++ x)
| sen_has : forall task w a, any_subject task -> action_word w a ->
    sentence (subject task ++ txt "has " ++ txt w)
| sen_has_span : forall task w a v c, any_subject task -> action_word w a -> span_word v c ->
    sentence (subject task ++ txt "has " ++ txt w ++ txt " " ++ txt v)
| sen_has_between : forall task w a v c s e, any_subject task -> action_word w a -> span_word v c ->
    some_text s -> some_text e ->
    sentence (subject task ++ txt "has " ++ txt w ++ txt " " ++ txt v ++ txt " between " ++ s ++ txt " and " ++ e)
| sen_has_at : forall task w a v c u x, any_subject task -> action_word w a -> span_word v c ->
    In u [" before "; " after "; " starting "; " on "]%string -> some_text x ->
    sentence (subject task ++ txt "has " ++ txt w ++ txt " " ++ txt v ++ txt u ++ x)
| sen_has_past : forall task w a u x, any_subject task -> action_word w a ->
    In u [" past "; " in past "]%string -> some_text x ->
    sentence (subject task ++ txt "has " ++ txt w ++ txt u ++ x)
| sen_running : forall u n, In u ["task '"; "while task '"]%string -> some_text n ->
    sentence (txt u ++ n ++ txt "' is running")
| sen_after : forall u n w r, In u ["after task '"; "after tasks '"; "after any tasks '"]%string ->
    some_text n -> outcome_word w r -> sentence (txt u ++ n ++ txt "'" ++ txt w)
| sen_started : forall x, some_text x -> sentence (txt "scheduler started " ++ x ++ txt " ago")
| sen_cycles : forall u n, In u ["scheduler has more than "; "scheduler has less than "; "scheduler has "]%string ->
    digits_only n -> sentence (txt u ++ n ++ txt " cycles")
| sen_env : forall e, some_text e -> sentence (txt "env '" ++ e ++ txt "'")
| sen_param : forall n, some_text n -> sentence (txt "param '" ++ n ++ txt "' exists")
| sen_param_is : forall k v, some_text k -> some_text v ->
    sentence (txt "param '" ++ k ++ txt "' is '" ++ v ++ txt "'").
