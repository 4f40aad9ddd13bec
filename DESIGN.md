# Formal model of rocketry in Rocq (Coq 8.16.1)

## Layout

`rocq/theories/` (logical name `Verif`):

| directory | contents |
|---|---|
| `Model/` | Shallow model of the Python code, function by function. Each definition cites file and lines of `/repo`. No proofs. |
| `Spec/`  | Small specifications that do not use the model's helpers (sets of moments, calendars, Boolean semantics, abstract histories). |
| `Proofs/`| Lemmas. |
| `Props/` | One file per group of properties, holding only the property theorems (`Proof. exact lemma. Qed.`), `Print Assumptions` and, beside each, an `Example` showing that a concrete non-trivial case meets its hypotheses. |

Conventions

* Python exceptions are values (`Err e`), never `None`-means-whatever. Non-terminating or
  unbounded recursion is modelled with fuel and a distinct `OutOfFuel` outcome; theorems either
  exclude it (termination proved) or say that they are about returning calls.
* A property the code satisfies in full is a theorem `cNN_…`. If the faithful model violates the
  property, there is a theorem `…_refuted` exhibiting a witness, and the strongest guarded form that
  holds is `…_partial` with a comment saying what is missing.
* Datetimes are integers: microseconds since 0001-01-01T00:00 (naive, proleptic Gregorian, as in
  CPython). Python's year range 1..9999 (OverflowError) is not modelled. Time zones are not modelled.
* Externals (user task bodies, user conditions, the log repository, clock, asyncio/thread/process
  start and completion) are parameters or nondeterministic inputs of the model, quantified over in theorems.

## Trusted base

* Coq's kernel (8.16.1) and the standard library. No axioms of our own. `Print Assumptions` is
  printed under every property theorem; see "Assumptions" below for the list.
* `coqchk -o` over all `Props/` files reports no axioms, no type-in-type, no unsafe fixpoints and no
  assumed positivity.
* The correspondence between `/repo` and `Model/` is by reading: each definition cites its lines.
* Not modelled: see "Not modelled" below.

## Plan per property

| id | model | proof |
|---|---|---|
| C01 | `Model/Interval`: `contains`, `overlaps` branch by branch, bounds in Q (dense) | case analysis on closedness; witnesses are midpoints |
| C02 | `Model/Interval`: `inter` (`__and__` with the ValueError of `__post_init__`), `is_empty` | case analysis |
| C03 | `Model/Anchored`: record of scope/start/end, `anchor_dt`, `contains`; `Model/Calendar` for weekday | modular arithmetic |
| C04 | same; `next_start` … `prev_end` | minimality/maximality by div/mod |
| C05,C06 | `TimeInterval.rollforward/rollback` over anchored periods | from C03, C04; recursion in rollforward shown to be dead or bounded |
| C07 | `TimeOfMonth` over the Gregorian calendar (`ymd2ord`, `ord2ymd`) | membership in full; rolls: refuted for days 29..31 (short months), proved for days up to 28 |
| C08 | `TimeOfYear` | membership refuted at the last microsecond of the end month; rolls refuted in common years; guarded theorem |
| C09 | `StaticInterval`, `always`, `never` | linear arithmetic |
| C10 | `TimeDelta`, `TimeSpanDelta`, `get_period_span` | linear arithmetic |
| C11,C12 | `All`, `Any` rolls over abstract sub-periods satisfying the contract of C05/C06 | induction on the iteration; Helly in one dimension; termination measure |
| C13 | period expression trees, constructors with flattening | induction on trees |
| C14 | cron field parsing to period expressions | field semantics by induction on list of items; deviations refuted |
| C15 | condition trees, observation outcome = value or exception | induction on trees |
| C16 | comparables with an explicit heap for the shared `_comps` dictionary | aliasing refuted, single-comparison case proved |
| C17 | log = list of records; cache; `get_measurement` | induction on logs |
| C18,C19 | `TaskExecutable`, `TaskRunnable` over log and cyclic period; histories | invariants over histories |
| C20 | `DependMixin.get_state` | invariants over interleaved histories |
| C21 | `Retry.get_state` | induction on history |
| C22,C23 | `start_async`/`_run_as_async` for main and async as an effect trace | case analysis on all outcomes |
| C24 | `_set_status` as state machine | induction on sequences |
| C25 | `set_cached` | induction / case analysis; tie case examined |
| C26–C28,C46,C47 | scheduler cycle as a transition system, environment moves between steps | invariants over all executions |
| C29 | batches as queue in the same system | refinement to FIFO queue |
| C30 | `serve` loop with hold flag | trace invariant |
| C31,C32 | `_check_termination` | set-level characterisation |
| C33 | shutdown loop | invariant + termination under fairness assumption on runs |
| C34 | startup/cycle/shutdown | trace invariant |
| C35 | `Session.run` | case analysis, list lemmas |
| C36 | session registry operations | invariant over operation sequences; `rename`/setter corner cases examined |
| C37 | parameter maps | functional-map algebra |
| C38 | non-interference of `Private` | two-run statement |
| C39 | `PipeArg` and lookups | induction |
| C40 | returns map | history invariant |
| C41 | `_Hooker` | induction |
| C42 | `increment` | minimality by induction (pigeonhole for termination) |
| C43 | closure parser, splitting at operators, assembly of nested lists with Python's negative indices (`Model/Parse.v`); the item parser is a parameter | a grammar of strings; induction on derivations, through lists of pieces and the passes of each operator; refuted for white space next to a parenthesis |
| C44 | query expressions | induction |
| C45 | `string_to_timedelta` on token lists / characters, integer numbers | induction |
| C48 | `include_grouper` | list induction |
| C49 | `_get_links` | list reasoning |
| C52,C53 | `from_tuples`, `to_pykwargs` over the C44 queries | induction with a pool / a dictionary invariant up to permutation; refuted for two repeated keys and for repeated or reversed bounds |
| C54 | same model | counting invariant of the scan for parentheses; refuted for operands without operator and misplaced operators |
| C55 | same parser with the operators of time strings | the C43 induction with sets of moments; refuted for `always` |
| C51 | `parse_timeout` of tasks and of the session over the C45 reader | case analysis |
| C50 | `CommandTask.execute` | refuted for list commands (accumulation), proved for string commands |

| C56 | the registered statements in order, a backtracking matcher for the subset of regular expressions they use, the API functions (`Model/Statement.v`); period constructors are a parameter | a symbolic matcher over sentences with unknown words, proved sound, evaluated on every documented sentence; refuted for `after task ... terminated`, `param ... exists`, `starting` and names with operators |
| C57 | the session's table of syntaxes with its cache, `parse_condition_item`, `FuncCond` and Python's binding of arguments (`Model/Custom.v`) | matcher of C56 for any syntax: sound and complete for a relational reading of patterns; then the table by induction over registrations; refuted for hidden syntaxes, arguments given by keyword and `bool` |
| C58 | `TaskCond`: texts, its one task, the state kept in memory and in the log | induction over histories of checks and over texts parsed in between; refuted for restarts, failed records, combined periods, a second text and the constructor form |
| C59 | `IsEnv`, `ParamExists` over the parameters of C40 | case analysis over parameters; refuted for what the scheduler observes and for arguments naming a parameter |
| C60 | `anchor_str` of the anchored classes with their regular expressions, and the constructors with texts (`Model/AnchorText.v`) | a relation between texts and stretches of the cycle as specification; each regular expression is shown to find what it should; membership as in C03; then through the sentences of C56; refuted for misread texts (midnight as an end, days of the year as ends, `last`, numbers of months, days that do not exist) |
| C61 | `Cron._get_period_from_expr` and `create_range` over strings, the splitting by `cron` (`Model/CronText.v`) | a relation between texts and the lines of C14 as specification; each written line is shown to be read as its line, so C14 carries over; numbers out of range, unknown names and empty fields raise when asked; refuted for lines accepted when written, short lines, times as hours and ranges beyond the field |
| C62 | `TaskRunning`, `RunningWrapper` (`Model/Running.v`) | the runs as they happened as specification, related to the run stack and to the log; the number found is shown to be the number of live runs in the window; refuted for `more_than` read from logs, for overlapping runs without run ids and for runs cut off by a crash |
| C63 | `SchedulerCycles`, `SchedulerStarted`, `scheduler_running`, `scheduler_cycles` (`Model/Running.v`) | direct evaluation for all bounds and moments; refuted before the start, where asking raises |
| C64 | `serve` with the end of `shut_down` and `_restart`, `Session.restart` (`Model/Relaunch.v`) | a recalled run is shown to be a chain of complete sessions, so that everything proved of one carries over; an invariant over all the functions of the scheduler tracks where SchedulerRestart can come from; refuted for a request in the last cycle of a session and for asynchronous runs that raise SchedulerRestart |
| C65 | `TimeActionWrapper`, `TimeCondWrapper`, `TaskStatusMixin` with its task and period, `Task.period` (`Model/Past.v`) | the span of the period is computed and the answer reduced to the count of C17, for both settings of `force_status_from_logs` in both sessions read; refuted for tasks whose start condition is a TaskSucceeded or TaskFinished object, at the moment a period begins, and for parts of the day before they have begun |
| C66 | `TaskAdapter`, the logger methods of `Session` and `Rocketry`, `logger_name` of tasks and groups, with the part of Python's `logging` they use: logger tree, levels, propagation, handlers (`Model/Logging.v`) | an invariant of the logger tree over arbitrary programs: the application's repository is the first of its logger and occurs nowhere else; then each record arrives once; refuted for two applications with one base name, groups, child loggers, similar base names, loggers given by name, and second time functions |
| C67 | `FuncTask` with a path: when it imports the file, keeps and drops the function, over arbitrary interleavings of the steps of runs and of changes of the file; `find_package_root` and the module name (`Model/Delayed.v`) | an invariant: a kept function was on disk when it was kept and no run inside the process has finished since; so runs are up to date unless something was left behind when they began; refuted for overlapping runs, for ever after a run whose parameters raise, for changes during the start, for the number of imports and for scripts' names |
| C68 | `TempSysPath`, `get_module` and the import statements of the file, with Python's search path and module cache (`Model/Imports.v`) | induction over the added directories and imported names; refuted when the directory already was on the path, after an assignment to sys.path, for sys_paths, for modules imported before and for shadowed ones |
| C69 | `Zone`: moments (UTC) and datetimes (what clocks show, with `fold`) kept apart, Python's two conversions as CPython writes them, the span and the history conditions on top. For any zone with at most one change around: the present survives the round trip; closed forms for both conversions, hence for `every(X)` and periodic conditions, from the cache and from the log. Constant zones reduce to the model of C17–C25. Refuted: early and late `every`, the pause in the repeated hour, failures forgotten after a change forward, cache against log. |
| C70 | `Crossing` on top of `Params` and `History`: whether a value can be pickled is an oracle. The arguments in a spawned child in closed form and, when everything crosses, equal to those of a forked one; `Task.__getstate__` as the recursion it is, for every recursion limit; the records of a failed start; the records that come back. Refuted: silently lost and replaced parameters, function arguments of session parameters, second starts, neighbours that cannot be pickled, doubled failures, success that never arrives. |
| C71 | `Settings`: Config and Task as lists of typed fields, sessions holding Config objects by number, and what a user does (make, set, run) as steps; pydantic's conversions are an oracle. Invariants over all step sequences (every session has a Config object with every setting; objects are shared only if passed on). Refuted where given settings are dropped silently: misspelt names, keywords beside a Config object or a session, the two names of execution, `task_priority`, misspelt execution, shared Config objects, zero timeouts, loggers set later. |
| C72 | `Dynamic`: task objects apart from the session's set of them, other code creating, adding, removing, disabling and ending at every point between the scheduler's steps, records of processes looked up by name. Theorems over all such moves: starts only of tasks in the session when the cycle began; every cycle comes to exactly the tasks then in the session; if removals are orderly (disabled, nothing running, no record on the way) no error, no misattributed record, the limit and an empty end; if names are not used again each task's memory agrees with the log. Counterexamples for a removal in mid-cycle, lost and misattributed outcomes, uncounted and abandoned processes, and a daily task created anew. |
| C73 | `Combine`: comparison and hash of each class of period as Python and dataclass define them, frozensets as lists in an order given by an oracle, construction of All and Any, RelativeDay. Theorems: equal periods have the same windows (all hashes; no unions inside); an intersection depends on the set of its arguments only; membership of a union and, without ties, its windows do not depend on the order. Counterexamples: three open windows, the end of a fixed interval, RelativeDays (all equal). |
| C74 | `RunTimes`: the latest start a task and its copies in child processes have noted, the records written here and sent by children, as a list of steps in any order with every reading of the clock. Theorems by invariants over all lists of steps: a run that no other run overlaps, runs in processes, runtimes not negative. Counterexamples: overlapping runs, the start read twice, force_status_from_logs with processes, the runtime of TaskLogRecords (for every record). |
| C75 | `World`, `Run`, `Scheduler` served with any oracle whose answers for the task's condition imply the history condition computed by `History` from the task's cached times, the log and the clock at that moment (the oracle for start conditions may look at the whole state). Proof: an invariant of every step of every function up to `serve` (each new run record was decided when the condition held, the cache then covering every earlier run record), with a one-shot licence carried from the check to the run record and a pending record while a child process starts; then arithmetic on windows. For coroutines and threads run one at a time a second invariant (every record of the task, of any action, is covered by its cache when a run of it is decided) gives the conditions on success, failures with retries, every(X) based on any outcome, and conditions joined with retry(n) by `|` (with the order of the task's own records). Counterexamples: a process that ends between the taking of the records and the check, a failing hook in the scheduler's thread. |
| C76 | The same served sessions, with an oracle whose answer for the task's condition is true wherever the history condition is. A relation between the states before and after each function (the log only grows, the clock does not go back, the task stays enabled and its cache is recorded in the log) is shown for every function by a generic induction (`LiveSteps`), then the task's turn in the cycle is found (`LiveTurn`) and the condition evaluated there, or a run record found that was written earlier in the cycle. For processes the relation also follows the queue of child records (nothing of the task is lost from it, and it is empty when a cycle ends) and the sequence of observed states, in which a slot must be free when the scheduler comes to the task. Windows are stated by `occurrence`. Counterexamples: preparing a second simultaneous run fails, so it is not recorded as run; another process keeps the only slot. |
| C77 | The unions of parameter sets as the code makes them (the union of the dictionaries passed as keyword arguments to the constructor, Model.Naming), with what Python does with the objects given as self, _param and type_ as a parameter of the model. For all other names a run's arguments are shown to be those of Model.Params, so C37's precedence holds of them; the three names are refuted, two of them for every session and task. |
| C78 | Conditions as trees with classes, attributes and bounds, the three definitions of == and the two of != (`Model/Equality.v`); what == says of attributes and bounds and what the conditions answer are parameters | induction over the trees, dictionaries of bounds compared as finite maps; refuted for negated constants (one way only), for floats as bounds and for != of conditions that count |
| C79 | timedelta_to_dict and timedelta_to_str over whole microseconds (`Model/Spelling.v`), what the float product comes to being a parameter (the exact product of 64-bit floats, from Coq's SpecFloat, is used in the refutations and cases) | the parts by division with remainder; the text is shown to be one of C45's sums of numbers and units, for which reading is already proved, or to hold a unit the reader does not know; refuted for parts of a second, for zero, below zero and for durations the floats do not hold |
| C80 | Parameters objects as places in a heap, with the methods that make new ones and those that change one in place; making tasks, requests, the start and the beginning of runs on it (`Model/Sharing.v`) | frame lemmas: what is made is new, and only new sets are changed; invariant over histories of events; the arguments are shown to be those of Model.Params (C37) for the sets as they were at the start; refuted for tasks other than function tasks that are given one Parameters object, which share it |
| C81 | QueueHandler.prepare, the part of handle_logs before a record is logged, and Formatter.format of Python's logging with the default format, on records as values (`Model/Carrying.v`); what msg % args makes and how exceptions are shown are parameters | case analysis over actions and exceptions, with the traceback shown to be in the message already; formatting is shown to be idempotent; refuted for records logged with arguments and for records without an action |
| C82 | the options of Popen and the rest of CommandTask.execute, with subprocess's communicate, for commands given by whether they start, when they end, their code and outputs (`Model/CommandRun.v`) | induction over the options, case analysis over commands; refuted for tasks with a timeout of their own: the timedelta is passed to communicate, which raises TypeError with the command running |
| C83 | CodeTask.execute with Python's exec of two namespaces, for a small language of sums, variables and functions (`Model/CodeRun.v`) | simulation between exec and a relational meaning of scripts, by induction over code and expressions, if functions use no names but that of their argument; refuted for functions that use parameters or other functions |
| C84 | == of arguments and of parameter sets over the arguments of `Model/Params.v`, with the identity of objects that dictionaries look at first (`Model/Alike.v`) | case analysis over classes of arguments, induction over the sets and counting of keys; refuted for different defaults, for pipes and functions of secrets and for arguments that need a task or session |

## Assumptions

`Print Assumptions` says "Closed under the global context" for every theorem in `Props/`: no axiom,
neither of our own nor of the standard library, is used. (The checker lists constants of
`Coq.ssr.ssrunder`, which some standard library files load; no theorem depends on them.)

## Which code is modelled

| Model file | code |
|---|---|
| `Interval`, `Calendar` | `pybox/time/interval.py`; Python's calendar arithmetic |
| `Anchored`, `Period` | `core/time/base.py`, `core/time/anchor.py`, `time/interval.py`, `time/construct.py` |
| `Cron` | `time/cron.py`, `core/time/utils.py` (fields are given as lists of numbers) |
| `Condition`, `History` | `core/condition/base.py`, `conditions/task/*.py`, `conditions/time.py`, `conditions/scheduler.py` |
| `World`, `Run`, `Scheduler` | `core/task.py`, `core/scheduler.py`, `core/log/adapter.py`, the thread, process and async run functions, logging of records |
| `Params`, `Hooks` | `core/parameters/*`, `args/*`, `core/hook.py` |
| `Registry`, `Depend` | `session.py` (task registry, naming, config), `conditions/task/task.py` (Depend...) |
| `Command`, `Duration` | `tasks/command.py`, `pybox/time/convert.py` |
| `Query` | `pybox/query/*` |
| `Parse`, `Statement` | `parse/*`, `pybox/string/parse/closure.py`, `conditions/api.py` |
| `Custom` | `conditions/func.py`, `conditions/meta.py`, `conditions/parameter.py`, `parse/_condition/condition_item.py`, `parse/utils/cond.py` |
| `AnchorText` | `time/interval.py` (`anchor_str`), `core/time/anchor.py` (`__init__`, `set_start`, `set_end` with texts); `dateutil.parser.parse` and `float` are oracles, the former assumed to read `H:MM`, `HH:MM` and `HH:MM:SS`; quarters of an hour are taken as whole microseconds |
| `CronText` | `time/cron.py` with strings, `core/time/anchor.py` (`create_range`), `conditions/api.py` (`cron`, `crontime`: the splitting of the text); `int(step)` reads decimal digits only (no signs, underscores or spaces); `dateutil.parser.parse` is the oracle of `AnchorText` |
| `Running` | `conditions/task/task.py` (`TaskRunning`), `conditions/api.py` (`RunningWrapper`, `scheduler_running`, `scheduler_cycles`), `conditions/scheduler.py`; the start of a run in the stack and in the log is one time; the records of a repository either all have a field for the run id or none has |
| `Relaunch` | `core/schedule.py` 108-154, 435-469 (`serve`, the end of `shut_down`, `_restart`); launching another process is an outcome, the process itself is not modelled |
| `Past` | `conditions/api.py` 30-123 (`TimeCondWrapper`, `TimeActionWrapper`), `conditions/task/utils.py` 62-66, `core/task.py` 1343-1368 (`Task.period`), `session.py` 227-233 |
| `Logging` | `core/log/adapter.py`, `session.py` 342-379, 453-516, `application.py` 33-55, 82-86, `core/task.py` 275-288, 300-303, 1104-1127, 1179; Python's `logging` as far as used (no filters, no disabled loggers, no place holders) |
| `Delayed` | `tasks/func.py` 15-23, 165-188, 222-247, 263-334, `pybox/pkg/path.py`, the order of steps in `core/task.py` 454-805; an import gives a version of the function or raises; whether the copy for a process can be pickled is left out |
| `Imports` | `tasks/func.py` 25-49, 233-242; of Python's imports `sys.modules` and the string entries of `sys.path`; imported modules import no others and do not raise |
| `Zone` | session.py:600-618, pybox/time/convert.py:33-36, core/time/utils.py:8-30, core/time/base.py:153-176, 232-237, conditions/task/utils.py:62-111, conditions/task/task.py:285-311; CPython's `datetime.fromtimestamp` and `datetime.timestamp` | the zone is a function from moments to offsets; periods are TimeDelta and the anchored ones (not Any, All, cron); microseconds instead of seconds with a fraction |
| `Crossing` | core/parameters/parameters.py:173-185, core/utils/pickle.py, core/task.py:475-543, 707-783, 1039-1072, 1170-1175, 1277-1336, session.py:526-547, core/schedule.py:255-287; `multiprocessing.Queue` drops what it cannot pickle | picklability is a parameter; the recursion limit counts nested `__getstate__` calls; further attempts to name the culprit (core/task.py:1322) and a log that refuses records are left out; the order of the pickler is that of the fields |
| `Settings` | session.py:42-119, 190-215; application.py:44-69; core/task.py:195-303 (options that stand for settings), 483-513, 718, 949-952, 989, 1239-1242; core/schedule.py:95-100, 246-250 | assigning to a task's options after it was made; what pydantic converts |
| `Dynamic` | core/schedule.py:93-437; session.py:227-242, 381-440; core/task.py:454-542, 707-739, 901-942, 1039-1072 (as far as they concern which tasks are in the session) | hooks, parameters, manual requests, restarts, failures to write the log, a set changed by another thread while it is gone through, the moment between a run's end and its being noticed |
| `Combine` | core/time/base.py:178-183, 239-244, 272-400, 481-486; time/delta.py:49-54; time/interval.py:405-440; the methods dataclass makes | a TimeDelta compared with a TimeSpanDelta of the same hash (an error); what crontab lines stand for (CronText, Cron) |
| `RunTimes` | core/task.py:479, 666-675, 681, 772, 1024-1037, 1104-1128, 1148-1194, 1242-1275, 927; log/log_record.py:39-64; pybox/time/convert.py:57-65, 216-222 | threads acting between the clock reading, the writing and the noting of one record; when runs come to which step (World); float rounding of seconds; the zone of fromtimestamp |
| `Naming` | core/parameters/parameters.py:36-48, 154-160 called with keyword arguments; core/task.py:482-498, 592-595, 658-665, 707-713, 785-811; tasks/func.py:273-284; the run identifier made from the union is left out, what Python does with objects given as `_param` and `type_` is a parameter |
| `Equality` | core/condition/base.py:68-70, 98-114, 131-136, 220-229, 309-341; what == says of attributes and what conditions answer are parameters; the wrappers of conditions/api.py are left out |
| `Spelling` | pybox/time/convert.py:67-209 with the default lengths, separator and scope; rounding after the first product is left out, formats given as dictionaries too |
| `Sharing` | core/parameters/parameters.py:36-48, 87-98, 114-120, 154-160, 196-201; core/task.py:374-378, 390-411, 482-498, 591-595, 656-665, 705-713, 785-811; tasks/func.py:214-219, 273-284; that pydantic copies the default Parameters() of the class for each task is taken from its documentation; functions called for arguments do not change sets |
| `Carrying` | log/handlers.py:16-46; core/schedule.py:265-287; core/task.py:1113; Python's LogRecord.getMessage and Formatter.format with the default format; stack_info and handlers with formatters of their own are left out |
| `CommandRun` | tasks/command.py:50-59, 84-99; the timeout argument of subprocess's communicate; decoding of the error output and commands that outlive the process Popen started are left out |
| `CodeRun` | tasks/code.py:51-55; Python's exec for a language of whole numbers, sums, variables, functions of one argument and calls; builtins are left out |
| `Alike` | core/parameters/arguments.py:81-84; core/parameters/parameters.py:162-172; args/builtin.py:67-70; args/secret.py:22-25; functions give the same value when called again; comparison of sets with other objects is left out |

Simplifications that matter for reading the theorems:

* one clock reading per decision about a condition;
* the environment (other threads, processes, the event loop, the user) may move at every point where
  the scheduler waits or yields; this allows more interleavings than there are;
* the code of a thread or process between two such points is one move;
* of the exceptions that are not `Exception`s only `CancelledError` is there; locks, the exec of a
  restart and removal of a task during scheduling are left out, pickling of parameters is in `Crossing` only;
* sets are lists in some order; strings are ASCII; floats of durations are exact rationals;
* condition strings: operators that end up as members are atoms of their own;
* sentences: regular expressions are those registered, with Python's greedy backtracking;
* custom conditions: functions without `*args`/`**kwargs`; the task of a check returns a boolean and
  is refused when its name is taken (the default `task_pre_exist`).

## Not modelled

`redbird` repositories beyond an append-only list with filters, pydantic coercions, what can be pickled (an oracle in `Crossing`), the OS
process/thread machinery beyond "a started run is alive until it finishes or is killed", `asyncio`
beyond task start/finish/cancel, time zones outside `Zone`, floating point.
