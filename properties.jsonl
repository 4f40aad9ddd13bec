{"id": "C01", "title": "Interval overlap means sharing a moment", "statement": "For two non-empty time intervals of any closedness, `a.overlaps(b)` is True exactly when some moment lies in both; it is symmetric.", "quantifier": "All pairs of intervals with arbitrary bounds and closed in {left,right,both,neither}, over a dense time line.", "why_tests_cant": "Sixteen closedness combinations times every bound coincidence; unit tests touch a handful of touching/nested cases.", "anchors": ["rocketry/pybox/time/interval.py:Interval.overlaps", "rocketry/pybox/time/interval.py:Interval.__contains__"]}
{"id": "C02", "title": "Interval intersection is set intersection", "statement": "`a & b` contains exactly the moments in both a and b whenever it returns; it raises only when the intervals lie strictly apart (share no moment). `is_empty` is True exactly when no moment is contained.", "quantifier": "All pairs of valid intervals and all moments.", "why_tests_cant": "The claim is an equivalence over all moments and all closedness combinations.", "anchors": ["rocketry/pybox/time/interval.py:Interval.__and__", "rocketry/pybox/time/interval.py:Interval.is_empty", "rocketry/pybox/time/interval.py:Interval.__post_init__"]}
{"id": "C03", "title": "Cyclic period membership", "statement": "For the fixed-length cycles (second, minute, hour, day, week), a datetime is in the period iff its offset in the cycle lies in the half-open clock range from start to end, wrapping past the cycle boundary when start > end, and every datetime is in it when start = end or it covers the whole cycle.", "quantifier": "All datetimes, all start/end anchors accepted by the constructor, all five cycle lengths.", "why_tests_cant": "Infinitely many datetimes and anchor pairs; boundary microseconds are never enumerated.", "anchors": ["rocketry/core/time/anchor.py:AnchoredInterval.__contains__", "rocketry/time/interval.py:TimeOfSecond,TimeOfMinute,TimeOfHour,TimeOfDay,TimeOfWeek"]}
{"id": "C04", "title": "Next/previous boundary of a cyclic period", "statement": "For fixed-length cycles, next_start/next_end give the earliest start/end moment strictly after dt and prev_start/prev_end give the latest start/end moment at or before dt.", "quantifier": "All datetimes, all anchors, all fixed-length cycles.", "why_tests_cant": "Minimality quantifies over every moment between dt and the answer.", "anchors": ["rocketry/core/time/anchor.py:AnchoredInterval.next_start,next_end,prev_start,prev_end"]}
{"id": "C05", "title": "rollforward gives the current or next occurrence", "statement": "For fixed-length cycles and a period containing at least one moment, rollforward(dt) returns a half-open interval whose start is the earliest moment >= dt in the period, whose moments all belong to the period, and whose end is the first end moment after dt; it never raises and dt is in the period iff dt is in rollforward(dt).", "quantifier": "All datetimes, all accepted anchors, all fixed-length cycles.", "why_tests_cant": "Needs all moments between dt and the occurrence, for every anchor pair.", "anchors": ["rocketry/core/time/base.py:TimeInterval.rollforward", "rocketry/core/time/base.py:TimePeriod.__contains__"]}
{"id": "C06", "title": "rollback gives the current or previous occurrence", "statement": "For fixed-length cycles and a period containing at least one moment, rollback(dt) returns an interval ending at the latest moment <= dt touching the period, starting at the start of that occurrence; all its moments are in the period, and no moment of the period lies strictly between its end and dt.", "quantifier": "All datetimes, all accepted anchors, all fixed-length cycles.", "why_tests_cant": "Needs all moments between the occurrence and dt, for every anchor pair.", "anchors": ["rocketry/core/time/base.py:TimeInterval.rollback"]}
{"id": "C07", "title": "Day-of-month periods follow the calendar", "statement": "TimeOfMonth(d1, d2) contains exactly the moments whose day of month is in the range, and rollforward/rollback give the nearest occurrence in the calendar, for every month length.", "quantifier": "All dates of the Gregorian calendar, all day-of-month anchors.", "why_tests_cant": "Month lengths vary; failures occur only in particular month/anchor combinations.", "anchors": ["rocketry/time/interval.py:TimeOfMonth", "rocketry/core/time/anchor.py:AnchoredInterval"]}
{"id": "C08", "title": "Month-of-year periods follow the calendar", "statement": "TimeOfYear(m1, m2) contains exactly the moments of months m1..m2 (up to the last microsecond), and rollforward/rollback give the nearest occurrence, in common and leap years.", "quantifier": "All dates of the Gregorian calendar, all month anchors.", "why_tests_cant": "Leap-year drift and month-end microseconds only show on specific dates.", "anchors": ["rocketry/time/interval.py:TimeOfYear", "rocketry/core/time/anchor.py:AnchoredInterval"]}
{"id": "C09", "title": "Fixed intervals, always and never", "statement": "StaticInterval(start,end) contains exactly the moments in [start,end); rollforward/rollback give the part of it from/up to dt; `always` contains every supported moment and `never` none.", "quantifier": "All datetimes and all start <= end.", "why_tests_cant": "Equivalence over all moments.", "anchors": ["rocketry/core/time/base.py:StaticInterval", "rocketry/core/time/base.py:always,never"]}
{"id": "C10", "title": "Relative windows", "statement": "With reference r, TimeDelta(past,future) contains exactly moments in [r-|past|, r+|future|] and TimeSpanDelta(near,far) exactly those whose distance from r is between near and far; rollback/rollforward give the window ending/starting at dt. Signs of the given deltas are irrelevant.", "quantifier": "All references, moments and signed deltas.", "why_tests_cant": "Universal over moments and deltas incl. negative ones.", "anchors": ["rocketry/core/time/base.py:TimeDelta", "rocketry/time/delta.py:TimeSpanDelta", "rocketry/core/time/utils.py:get_period_span"]}
{"id": "C11", "title": "Intersection of periods (&)", "statement": "If rollforward on `a & b & ...` returns, the interval starts at the earliest moment >= dt that is in every sub-period and consists only of common moments; it does return whenever a common moment exists after dt. rollback returns only common moments.", "quantifier": "All finite sets of sub-periods obeying the rollforward/rollback contract, all datetimes.", "why_tests_cant": "The search iterates an unbounded number of times.", "anchors": ["rocketry/core/time/base.py:All.rollforward,All.rollback,All.__init__"]}
{"id": "C12", "title": "Union of periods (|)", "statement": "rollforward on `a | b | ...` starts at the earliest moment >= dt that is in some sub-period and contains only moments of the union; dt is in the union iff it is in some sub-period; overlapping occurrences are merged into one.", "quantifier": "All finite sets of sub-periods obeying the rollforward/rollback contract, all datetimes.", "why_tests_cant": "Depends on the sort order and overlap pattern of arbitrarily many intervals.", "anchors": ["rocketry/core/time/base.py:Any.rollforward,Any.rollback,Any.__init__"]}
{"id": "C13", "title": "Period algebra simplifications preserve meaning", "statement": "Building periods with & and | (dropping `always`, flattening nested All/Any) gives a period with the same members as the plain intersection/union, in any nesting and order.", "quantifier": "All expression trees over &, |, always and arbitrary periods.", "why_tests_cant": "Unbounded expression trees.", "anchors": ["rocketry/core/time/base.py:TimePeriod.__and__,TimePeriod.__or__,All.__init__,Any.__init__"]}
{"id": "C14", "title": "Crontab expressions mean what cron means", "statement": "A moment is in Cron(minute,hour,dom,month,dow) iff its minute, hour and month match their fields and the day matches dom and dow (either when both are restricted), with lists, ranges and steps read as in crontab.", "quantifier": "All crontab expressions and all moments.", "why_tests_cant": "The expression grammar times the calendar cannot be enumerated; step/range offsets differ per field.", "anchors": ["rocketry/time/cron.py:Cron", "rocketry/core/time/anchor.py:AnchoredInterval.create_range"]}
{"id": "C15", "title": "Condition algebra", "statement": "Conditions combined with &, |, ~ evaluate as Boolean and/or/not of their parts for every nesting: flattening does not change the value, double negation cancels, De Morgan holds, and evaluation short-circuits left to right (an error in an unevaluated part is not raised).", "quantifier": "All condition expression trees and all observations (including raising ones).", "why_tests_cant": "Unbounded trees and observation outcomes.", "anchors": ["rocketry/core/condition/base.py:BaseCondition,All,Any,Not"]}
{"id": "C16", "title": "Comparison conditions compare the measurement", "statement": "cond == n, !=, <, <=, >, >= hold iff the measured count compares so; several bounds are conjoined; without bounds it means count > 0; building a comparison does not alter the condition it was built from.", "quantifier": "All measurements, comparison operators, chains of comparisons.", "why_tests_cant": "Chained comparisons share state; order of construction matters.", "anchors": ["rocketry/core/condition/base.py:BaseComparable"]}
{"id": "C17", "title": "Cached and log-based task history decisions agree", "statement": "When the cached last-action times equal the latest log entries, task history conditions (TaskSucceeded, TaskFailed, TaskStarted, ... in a period, with any comparison) give the same answer with the cache shortcut as by counting records of the log.", "quantifier": "All logs, periods, comparisons, single and multi action conditions.", "why_tests_cant": "Needs all histories; the shortcut has several branches.", "anchors": ["rocketry/conditions/task/utils.py:TaskStatusMixin.get_measurement", "rocketry/core/task.py:Task._set_status,Task._get_last_action"]}
{"id": "C18", "title": "daily/hourly/... run once per period", "statement": "A task with a run-once-per-period condition (TaskExecutable, as built by daily, hourly, weekly, every-with-finish) is never started again within an occurrence after it succeeded, was terminated or inacted in it; it is retried after failure at most `retries` times per occurrence; and is startable if it has not finished in the occurrence.", "quantifier": "All logs and times, all fixed-length cyclic periods, any number of retries.", "why_tests_cant": "Quantifies over every history of runs.", "anchors": ["rocketry/conditions/task/task.py:TaskExecutable", "rocketry/conditions/api.py"]}
{"id": "C19", "title": "cron/every starts at most once per window", "statement": "TaskRunnable (cron, every-by-run) is true only when the task has not been started in the current window; consecutive starts of a task with every('X') by run are more than X apart.", "quantifier": "All start histories and observation times.", "why_tests_cant": "Quantifies over every history of starts.", "anchors": ["rocketry/conditions/task/task.py:TaskRunnable", "rocketry/conditions/api.py:every,cron"]}
{"id": "C20", "title": "Dependencies trigger once per upstream outcome", "statement": "after_success/after_fail/after_finish(dep) hold iff dep has a matching outcome later than the task's latest start (or the task has never run); once the task has started after that outcome the condition is false until dep has a new matching outcome.", "quantifier": "All interleavings of the two tasks' histories.", "why_tests_cant": "Every interleaving of two unbounded histories.", "anchors": ["rocketry/conditions/task/utils.py:DependMixin.get_state", "rocketry/conditions/task/task.py:DependSuccess,DependFailure,DependFinish"]}
{"id": "C21", "title": "Retry bound", "statement": "retry(n) is true only right after a failure and only while the number of failures since the last non-failure outcome is at most n; with n = -1 it retries always, with 0 never. Hence at most n retries follow a first failure.", "quantifier": "All histories and all n >= -1.", "why_tests_cant": "Every history.", "anchors": ["rocketry/conditions/task/task.py:Retry"]}
{"id": "C22", "title": "Every run ends with exactly one outcome", "statement": "Every run recorded as started by an in-process (main or async) execution is followed by exactly one outcome record (success, fail, inaction or terminate) with its run id, whatever the task body does, provided the log can be written.", "quantifier": "All task bodies outcomes, filters, parameter materialisation failures and cancellations.", "why_tests_cant": "All raising points inside a run.", "anchors": ["rocketry/core/task.py:Task.start_async,Task._run_as_async"]}
{"id": "C23", "title": "Outcome classification", "statement": "A body that returns is logged success, raises TaskInactionException inaction, TaskTerminationException or cancellation terminate, other exception fail, and the exception propagates only when the task has no execution set.", "quantifier": "All body outcomes and execution kinds.", "why_tests_cant": "All exceptions and execution kinds.", "anchors": ["rocketry/core/task.py:Task._run_as_async"]}
{"id": "C24", "title": "Task status equals the last logged action", "statement": "After any sequence of logged actions, task.status is the last logged action and each last_* time is the time of the last record of that action.", "quantifier": "All action sequences and log write failures.", "why_tests_cant": "All histories incl. log failures.", "anchors": ["rocketry/core/task.py:Task._set_status,Task.log_*", "rocketry/core/task.py:Task._get_last_action"]}
{"id": "C25", "title": "Crash recovery on start", "statement": "When the session starts, a task whose latest logged action is a start without an outcome gets exactly one crash record; other tasks get none and their status is the latest action; doing it twice adds nothing.", "quantifier": "All logs left by a previous process (all crash points).", "why_tests_cant": "All crash points.", "anchors": ["rocketry/core/task.py:Task.set_cached", "rocketry/core/schedule.py:Scheduler.startup"]}
{"id": "C26", "title": "At most one live run without multilaunch", "statement": "A task with async, thread or process execution that does not allow multilaunch never has two live runs started by the scheduler at once.", "quantifier": "All schedules, interleavings of run completions with cycles, any number of tasks.", "why_tests_cant": "All interleavings.", "anchors": ["rocketry/core/schedule.py:Scheduler.is_task_runnable,Scheduler.run_cycle"]}
{"id": "C27", "title": "Process cap", "statement": "The number of live process runs started by the scheduler never exceeds the configured max_process_count.", "quantifier": "All schedules and numbers of tasks (incl. multilaunch).", "why_tests_cant": "All interleavings.", "anchors": ["rocketry/core/schedule.py:Scheduler.has_free_processors,Scheduler.is_task_runnable"]}
{"id": "C28", "title": "Priority order inside a cycle", "statement": "In each cycle tasks are considered in descending priority; a task is never started in a cycle before a startable task of strictly higher priority.", "quantifier": "All task sets and priorities.", "why_tests_cant": "All task sets.", "anchors": ["rocketry/core/schedule.py:Scheduler.tasks,Scheduler.run_cycle"]}
{"id": "C29", "title": "Disabled tasks do not start; manual runs always do", "statement": "A disabled task is never started by its condition; a task with a manual run request (task.run()) is started regardless of its condition or being disabled, once per request, first requested first, with the requested parameters.", "quantifier": "All request/cycle interleavings.", "why_tests_cant": "All interleavings of requests and cycles.", "anchors": ["rocketry/core/task.py:Task.run,Task.is_runnable,Task._get_direct_params", "rocketry/core/schedule.py:Scheduler.run_cycle"]}
{"id": "C30", "title": "Holding the scheduler", "statement": "While the scheduler is on hold no task is started and no cycle is counted; after release cycles resume.", "quantifier": "All hold/release interleavings.", "why_tests_cant": "All interleavings.", "anchors": ["rocketry/core/schedule.py:Scheduler.on_hold,Scheduler._hibernate,Scheduler.serve"]}
{"id": "C31", "title": "Timeouts", "statement": "At each check exactly the live runs of a non-permanent task that have lasted longer than the task's timeout (or the session's when none) are terminated; permanent tasks are never timed out.", "quantifier": "All sets of runs, start times and timeouts.", "why_tests_cant": "All run sets and times.", "anchors": ["rocketry/core/task.py:Task._check_termination", "rocketry/core/schedule.py:Scheduler.run_cycle"]}
{"id": "C32", "title": "End conditions and manual termination", "statement": "When a task's end condition holds or termination was requested, all its runs are terminated at the next check and the request is cleared; otherwise none is by this rule. An end condition that raises counts as holding when condition errors are silenced.", "quantifier": "All run sets, flags and condition outcomes.", "why_tests_cant": "All combinations of flags.", "anchors": ["rocketry/core/task.py:Task._check_termination,Task._terminate_all"]}
{"id": "C33", "title": "Shutdown completes", "statement": "After shutdown no run is alive: ordinary shutdown lets non-permanent runs finish (subject to timeouts), permanent runs are terminated, and an instant or repeated shutdown terminates all.", "quantifier": "All sets of live runs and shutdown requests.", "why_tests_cant": "All schedules.", "anchors": ["rocketry/core/schedule.py:Scheduler._shut_down_tasks,Scheduler.shut_down,Scheduler.terminate_all"]}
{"id": "C34", "title": "Startup and shutdown tasks", "statement": "Tasks marked on_startup run at startup, tasks marked on_shutdown run at shutdown, and neither is started by ordinary cycles.", "quantifier": "All task sets and numbers of cycles.", "why_tests_cant": "All task sets.", "anchors": ["rocketry/core/schedule.py:Scheduler.startup,Scheduler.run_cycle,Scheduler.run_shutdown_tasks"]}
{"id": "C35", "title": "Running selected tasks", "statement": "session.run(names) starts each of the named tasks and no other, in one cycle, and afterwards every task's disabled flag and the session's shut condition are as before.", "quantifier": "All sets of tasks and names.", "why_tests_cant": "All sets.", "anchors": ["rocketry/session.py:Session.run"]}
{"id": "C36", "title": "Task names are unique", "statement": "After any sequence of task creations, additions, renames and removals each name denotes at most one task of the session, and looking a name up gives that task.", "quantifier": "All operation sequences and all task_pre_exist policies.", "why_tests_cant": "All operation sequences.", "anchors": ["rocketry/session.py:Session.add_task,Session.__getitem__,Session.create_task", "rocketry/core/task.py:Task.validate_name,Task.parse_name"]}
{"id": "C37", "title": "Parameter precedence", "statement": "The value passed to a task for a key is that of the manual run request if given, else of the task's own parameters, else of the built-in extras, else of the session parameters; extras and session parameters are passed only for keys the task's code takes, and keys absent everywhere are not passed.", "quantifier": "All parameter maps and keys.", "why_tests_cant": "All maps.", "anchors": ["rocketry/core/task.py:Task.get_extra_params,Task._get_direct_params,Task._run_as_async", "rocketry/core/parameters/parameters.py:Parameters.__or__"]}
{"id": "C38", "title": "Private parameters are hidden", "statement": "A Private parameter shows as ***** through the session's parameter mapping, str and repr, and its real value reaches only task materialisation.", "quantifier": "All parameter maps and secret values.", "why_tests_cant": "Non-interference: for all pairs of secrets.", "anchors": ["rocketry/args/secret.py:Private", "rocketry/core/parameters/parameters.py:Parameters._get,Parameters.materialize"]}
{"id": "C39", "title": "Argument pipes and defaults", "statement": "A pipe a >> b >> c yields the value of the first argument that has one, in order and regardless of how it was nested; missing session parameters, returns and environment variables give the default when set and a KeyError otherwise.", "quantifier": "All pipes and lookup outcomes.", "why_tests_cant": "Unbounded pipes.", "anchors": ["rocketry/core/parameters/arguments.py:PipeArg,BaseArgument.__rshift__", "rocketry/args/builtin.py:Arg,Return,EnvArg,CliArg"]}
{"id": "C40", "title": "Return values reach dependants", "statement": "Return(task) yields the value returned by the task's latest successful run in the session, however it is executed; a failed run does not change it.", "quantifier": "All run histories.", "why_tests_cant": "All histories.", "anchors": ["rocketry/core/task.py:Task._handle_return", "rocketry/args/builtin.py:Return"]}
{"id": "C41", "title": "Hooks run paired", "statement": "Every hook runs once before a run; generator hooks that yielded resume exactly once after it, in order, however many hooks there are.", "quantifier": "All hook lists.", "why_tests_cant": "Unbounded hook lists.", "anchors": ["rocketry/core/hook.py:_Hooker"]}
{"id": "C42", "title": "Run ids are fresh", "statement": "The increment run id (an alternative to the random default) is the smallest positive integer not used by a run still tracked by the task, so ids of concurrent runs are distinct.", "quantifier": "All stacks of runs.", "why_tests_cant": "All stacks.", "anchors": ["rocketry/tasks/run_id.py:increment"]}
{"id": "C43", "title": "Condition strings parse with the documented precedence", "statement": "Parsing a string of conditions with parentheses, ~, & and | yields the condition with ~ binding tightest, then &, then |; printing an expression fully parenthesised and parsing it back gives an equivalent condition.", "quantifier": "All expression trees.", "why_tests_cant": "Unbounded nesting.", "anchors": ["rocketry/parse/utils/string_parser.py:InstructionParser", "rocketry/pybox/string/parse/closure.py:ClosureParser", "rocketry/pybox/container/visitor.py:Visitor"]}
{"id": "C44", "title": "Query expressions", "statement": "A query built from key comparisons combined with &, | and ~ matches a record iff the Boolean combination holds of the record; from_kwargs/from_dict match iff every given criterion holds.", "quantifier": "All query trees and records.", "why_tests_cant": "Unbounded trees.", "anchors": ["rocketry/pybox/query/base.py", "rocketry/pybox/query/parse.py"]}
{"id": "C45", "title": "Duration strings", "statement": "Parsing a duration string gives the sum of its numbers times their units, with a leading minus negating, regardless of separators.", "quantifier": "All sequences of number/unit pairs.", "why_tests_cant": "Unbounded strings.", "anchors": ["rocketry/pybox/time/convert.py:string_to_timedelta"]}
{"id": "C46", "title": "Condition errors do not stop the scheduler when silenced", "statement": "With silence_cond_check a start condition that raises counts as false and the other tasks of the cycle are still considered; without it the exception propagates and shuts down.", "quantifier": "All conditions and task lists.", "why_tests_cant": "All task lists.", "anchors": ["rocketry/core/schedule.py:Scheduler.check_task_cond,Scheduler.run_cycle"]}
{"id": "C47", "title": "Log failures are reported, not lost", "statement": "If writing a task's log record fails, the status becomes fail (or run for a start record), the error is raised as TaskLoggingError, and with silence_task_logging the scheduler continues with other tasks.", "quantifier": "All write-failure points.", "why_tests_cant": "All failure points.", "anchors": ["rocketry/core/task.py:Task._set_status", "rocketry/core/schedule.py:Scheduler.run_task"]}
{"id": "C48", "title": "Grouped tasks are included faithfully", "statement": "Including a group adds each of its tasks once under the prefixed name with start condition (own and group's) and keeps names unique.", "quantifier": "All groups and sessions.", "why_tests_cant": "All groups.", "anchors": ["rocketry/application.py:_AppMixin.include_grouper"]}
{"id": "C49", "title": "Dependency listing is complete", "statement": "The listed dependency links are exactly those from upstream tasks to tasks whose start conditions depend on them.", "quantifier": "All sessions.", "why_tests_cant": "All condition trees.", "anchors": ["rocketry/utils/dependencies.py:Dependencies"]}
{"id": "C50", "title": "Command arguments", "statement": "A command task's argument list is the command followed by its parameters in order, the same on every run of the same task.", "quantifier": "All commands, parameters, numbers of runs.", "why_tests_cant": "Depends on the number of earlier runs.", "anchors": ["rocketry/tasks/command.py:CommandTask.execute"]}
{"id": "C51", "title": "Timeouts mean the same on tasks and in the session", "statement": "A timeout given as a number (of seconds), a duration string or a timedelta is the same duration whether it is given to a task or to the session.", "quantifier": "All numbers, strings and timedeltas.", "why_tests_cant": "Unbounded numbers and strings.", "anchors": ["rocketry/core/task.py:Task.parse_timeout", "rocketry/session.py:Config.parse_timeout", "rocketry/pybox/time/convert.py:to_timedelta"]}
{"id": "C52", "title": "Query pairs: repeated keys are alternatives", "statement": "A query given as a list of (key, value) pairs matches a record iff for every key given at least one of its values fits; different keys are all required.", "quantifier": "All lists of pairs and records.", "why_tests_cant": "Depends on how many keys are repeated.", "anchors": ["rocketry/pybox/query/parse.py:Parser.from_tuples"]}
{"id": "C53", "title": "The keyword form of a query means the same query", "statement": "Turning a conjunction of equalities and bounds into keyword arguments and back gives a query that matches the same records, and turning keyword arguments into a query and back gives the same arguments.", "quantifier": "All conjunctions, keyword arguments and records.", "why_tests_cant": "Depends on combinations of bounds for the same key.", "anchors": ["rocketry/pybox/query/base.py:QueryBase.to_pykwargs", "rocketry/pybox/query/parse.py:Parser.from_kwargs"]}
{"id": "C54", "title": "Malformed condition strings are rejected", "statement": "A string that is not a well-formed combination of conditions (parentheses that do not match, operands without an operator, operators without an operand) raises an error instead of being read as some other condition.", "quantifier": "All strings.", "why_tests_cant": "Unbounded strings.", "anchors": ["rocketry/parse/utils/string_parser.py:InstructionParser", "rocketry/pybox/string/parse/closure.py:ClosureParser"]}
{"id": "C55", "title": "Time strings mean the combination they spell", "statement": "Parsing a string of time periods combined with &, | and parentheses gives a period with exactly the moments of that combination, & binding tighter than |.", "quantifier": "All expression trees over periods.", "why_tests_cant": "Unbounded nesting.", "anchors": ["rocketry/parse/_time/string.py:parse_time_string", "rocketry/parse/utils/string_parser.py:InstructionParser"]}
{"id": "C56", "title": "Condition sentences mean the same as the API calls", "statement": "Every condition sentence of the documented syntax (\"daily between 10:00 and 12:00\", \"after tasks 'a', 'b' failed\", \"task 'a' has succeeded this week before Friday\", \"every 2 hours\", ...), by itself or combined with &, | and ~, gives the same condition as the call of the condition API it stands for, whatever the names, times and durations in it; a text that is no such sentence is rejected.", "quantifier": "All sentences, names, times, durations and combinations.", "why_tests_cant": "Unbounded names, times and combinations; about 150 patterns tried in order, so one may shadow another for some arguments only.", "anchors": ["rocketry/parse/_setup_cond_parsers.py", "rocketry/parse/_condition/condition_item.py:parse_condition_item", "rocketry/conditions/api.py", "rocketry/time/construct.py"]}
{"id": "C57", "title": "Custom conditions", "statement": "A function decorated with a condition syntax (@app.cond / FuncCond with a syntax) is what every text fitting that syntax means in a condition string: the condition's state is what the function returns when called with the named groups of the text, the defaults of its other parameters and the values of the arguments (Session, Return, ...) in its signature. Registering syntaxes leaves the built-in sentences as they are; missing or unknown parameters raise an error.", "quantifier": "All syntaxes, texts, signatures, argument values and combinations of conditions.", "why_tests_cant": "Depends on every syntax registered before, and on unbounded texts and signatures.", "anchors": ["rocketry/conditions/func.py:FuncCond", "rocketry/conditions/meta.py:_FuncTaskCondWrapper", "rocketry/parse/utils/cond.py:add_condition_parser", "rocketry/parse/_condition/condition_item.py:parse_condition_item", "rocketry/core/condition/base.py:BaseCondition.observe"]}
{"id": "C58", "title": "Conditions checked by a task", "statement": "A condition whose value is worked out by a task of its own (TaskCond) holds at a moment iff the latest successful check returned a true value and lies in the condition's active time period; before the first check it does not hold. Texts of its syntax make such conditions with the parts of the text as the task's parameters; the same text always stands for the same condition and task.", "quantifier": "All histories of checks, active periods, moments, texts and restarts.", "why_tests_cant": "Depends on the whole history of checks and on the order in which texts are parsed.", "anchors": ["rocketry/conditions/meta.py:TaskCond", "rocketry/conditions/meta.py:_FuncTaskCondWrapper"]}
{"id": "C59", "title": "Conditions on session parameters", "statement": "IsEnv(e) holds iff the session's parameter env is e; ParamExists(keys, values) holds iff all the keys are parameters of the session and those with a value given have that value.", "quantifier": "All sessions, parameters and values, including arguments that are worked out when asked for.", "why_tests_cant": "Ranges over all sets of parameters and over arguments referring to other parameters.", "anchors": ["rocketry/conditions/parameter.py:IsEnv", "rocketry/conditions/parameter.py:ParamExists", "rocketry/core/parameters/parameters.py:Parameters"]}
{"id": "C60", "title": "Times in strings", "statement": "A time written as a text ('10:30', '9:05:59', 'Mon', 'Friday 18:00', '5th 12:00', 'Feb', 'Dec 24th', '45:30', '12.5') in a time period, an API call or a condition sentence stands for the clock time it spells, in any letter case: periods begin and end there, the name of a day or month standing for the whole of it. A text that spells no such time is rejected.", "quantifier": "All texts of each cycle (minute, hour, day, week, month, year), letter cases and moments.", "why_tests_cant": "Unboundedly many texts, most of which look reasonable; the reading is by partial matches.", "anchors": ["rocketry/time/interval.py:TimeOfMinute.anchor_str", "rocketry/time/interval.py:TimeOfHour.anchor_str", "rocketry/time/interval.py:TimeOfWeek.anchor_str", "rocketry/time/interval.py:TimeOfMonth.anchor_str", "rocketry/time/interval.py:TimeOfYear.anchor_str", "rocketry/core/time/anchor.py:AnchoredInterval"]}
{"id": "C61", "title": "Crontab lines as strings", "statement": "A crontab line written as a text (cron('*/2 12-18 * Oct Fri'), crontime(...), the sentence 'cron ...' or the fields of a call) is read as crontab reads it: five fields with a blank between them, each a list of values, ranges and steps, days of the week and months also by name in any letter case. The period covers the minutes the line names. A text that is no such line is rejected.", "quantifier": "All texts, lines and moments.", "why_tests_cant": "Unboundedly many lines and moments; most malformed lines look like lines.", "anchors": ["rocketry/time/cron.py:Cron", "rocketry/conditions/api.py:cron", "rocketry/conditions/api.py:crontime", "rocketry/core/time/anchor.py:AnchoredInterval.create_range"]}
{"id": "C62", "title": "Conditions on running tasks", "statement": "running, running('task'), its comparisons (running('task') == 2), running.more_than(d), running.less_than(d) and running.between(a, b) hold exactly when the number of runs of the task that are alive now and began that long ago is as said (at least one if nothing is said), whether the runs are known from memory or read from the task logs, with run ids or without.", "quantifier": "All histories of runs and logs, windows, comparisons and moments.", "why_tests_cant": "Depends on which runs overlap and on whether each ended before, in or after the window asked for.", "anchors": ["rocketry/conditions/task/task.py:TaskRunning", "rocketry/conditions/api.py:RunningWrapper", "rocketry/core/time/utils.py:get_period_span"]}
{"id": "C63", "title": "Conditions on the scheduler", "statement": "scheduler_cycles(more_than, less_than) holds iff the scheduler has completed more than, respectively less than, that many cycles since it started; scheduler_running(more_than, less_than) holds iff it started at least, respectively at most, that long ago; 'scheduler started d ago' holds iff it started within the last d. Before the scheduler has started none of them holds.", "quantifier": "All bounds, numbers of cycles, starting times and moments.", "why_tests_cant": "Boundaries in time and all combinations of the bounds given.", "anchors": ["rocketry/conditions/scheduler.py:SchedulerCycles", "rocketry/conditions/scheduler.py:SchedulerStarted", "rocketry/conditions/api.py:scheduler_running", "rocketry/conditions/api.py:scheduler_cycles"]}
{"id": "C64", "title": "Restarting", "statement": "After session.restart(), or when a task raises SchedulerRestart as the Restart task does, the scheduler finishes the cycle it is in, begins no further cycle or run, shuts down as for an ordinary shutdown (shutdown tasks run, live runs are waited for, none is left) and only then restarts: with restarting = 'recall' as another complete session in this process, otherwise by launching a new process, and with an unknown setting it raises. Without such a request it never restarts.", "quantifier": "All schedules, moments of the request, ways the session can end, and numbers of restarts.", "why_tests_cant": "Depends on when in a cycle the request comes and on everything that can raise in between.", "anchors": ["rocketry/core/schedule.py:Scheduler.serve", "rocketry/core/schedule.py:Scheduler.shut_down", "rocketry/core/schedule.py:Scheduler._restart", "rocketry/session.py:Session.restart", "rocketry/tasks/maintain/os.py:Restart"]}
{"id": "C65", "title": "Conditions on what tasks have done", "statement": "started, succeeded, failed and finished, for the task itself or a named one (succeeded('task')), hold exactly when the number of such records the task has ever had is as said (at least one if nothing is said); with .this_minute, .this_hour, .today, .this_week or .this_month when the number since that minute, hour, day, week or month began is; with .today.between('10:00', '12:00') and the like when the number today between those times is. This does not depend on where the scheduler is allowed to look (memory or logs), nor on the start conditions of the tasks.", "quantifier": "All logs, sessions, start conditions, settings, comparisons and moments.", "why_tests_cant": "Depends on the moment within the day, on everything logged before and on the shape of another task's start condition.", "anchors": ["rocketry/conditions/api.py:TimeActionWrapper", "rocketry/conditions/api.py:TimeCondWrapper", "rocketry/conditions/task/utils.py:TaskStatusMixin", "rocketry/core/task.py:Task.period"]}
{"id": "C66", "title": "The task log", "statement": "An application keeps its task log in the repository it was given: what is read for a task (task.logger.get_records(), conditions, the cached times on startup) is what the repository already held of it followed by everything the task has logged since, each record once and in order, and session.get_task_log() gives exactly the records of the session's tasks. With a time_func the records carry the session's time. Other applications, groups of tasks, loggers and handlers of the same program do not change that.", "quantifier": "All programs: sequences of creating applications and tasks, adding handlers, setting levels, starting sessions and logging actions.", "why_tests_cant": "Loggers are global to the process; which handlers see a record depends on the order and names of everything created before.", "anchors": ["rocketry/core/log/adapter.py:TaskAdapter", "rocketry/session.py:Session._check_readable_logger", "rocketry/session.py:Session.get_task_log", "rocketry/session.py:Session.get_task_loggers", "rocketry/application.py:Rocketry", "rocketry/application.py:_AppMixin.include_grouper", "rocketry/core/task.py:Task.parse_logger_name"]}
{"id": "C67", "title": "Tasks given by a file", "statement": "A task given by a path and the name of a function (FuncTask(path='jobs.py', func_name='main')) calls, in each run, the function as the file has it since the run was started, with the parameters of the same version, and executes the file once. The module has the name Python itself would give it: the dotted name from the root of the packages the file is in, or the name of the file without its suffix.", "quantifier": "All interleavings of runs (main, async, thread, process) with each other and with changes of the file, failures of imports and parameters, and directory trees.", "why_tests_cant": "Depends on which runs overlap and on what is saved to the file between their steps.", "anchors": ["rocketry/tasks/func.py:FuncTask.get_func", "rocketry/tasks/func.py:FuncTask.get_task_params", "rocketry/tasks/func.py:FuncTask.postfilter_params", "rocketry/tasks/func.py:FuncTask.process_finish", "rocketry/tasks/func.py:get_module", "rocketry/pybox/pkg/path.py:find_package_root", "rocketry/core/task.py:Task._run_as_async"]}
{"id": "C68", "title": "Modules of a task given by a file", "statement": "While the file of such a task is imported the modules beside it (or in the root of its packages) and in the directories given as sys_paths can be imported and mean the files there as they are; afterwards sys.path is as it was before, whether the import succeeded or not.", "quantifier": "All search paths, earlier imports, directory contents, assignments to sys.path and sequences of imports for different tasks.", "why_tests_cant": "The search path and the modules imported are global to the process and depend on everything imported before.", "anchors": ["rocketry/tasks/func.py:TempSysPath", "rocketry/tasks/func.py:get_module", "rocketry/tasks/func.py:FuncTask.get_func", "rocketry/tasks/func.py:FuncTask.sys_paths"]}
{"id": "C69", "title": "Clocks that are put forward or back do not make tasks run too often or too seldom", "statement": "When the clocks where the scheduler runs are changed (summer time, or any zone given as config.timezone), every(X) is still true exactly when X has gone by since the last start (success, failure), a daily, hourly or other periodic task still runs once per occurrence as the clocks show it, failures still count against the retries, and the answer is the same whether it comes from the task's own notes or from the log.", "quantifier": "all zones with at most one change in the days around, all changes of less than a day, all histories, periods and moments", "why_tests_cant": "tests run at the moment and in the zone of the machine, or with times set in winter; a change happens twice a year at night and lasts an hour.", "anchors": ["rocketry/session.py:Session._format_timestamp", "rocketry/pybox/time/convert.py:to_timestamp", "rocketry/core/time/utils.py:get_period_span", "rocketry/core/time/base.py:TimeDelta.rollback", "rocketry/conditions/task/utils.py:TaskStatusMixin.get_measurement", "rocketry/conditions/task/task.py:TaskExecutable"]}
{"id": "C70", "title": "A task run in a process of its own is given what it would be given here, and its outcome comes back", "statement": "A task with execution='process' gets the same arguments whether processes are forked or started afresh (spawn); a parameter or task that cannot be handed over makes the start fail visibly, recorded as one run and one failure; other tasks and earlier runs do not keep it from starting; and when its function returns, the success and the return value arrive.", "quantifier": "all parameter sets, sessions, tasks with stored return values, recursion limits, picklability of each value and reports of the child", "why_tests_cant": "tests run on Linux, where processes are forked and nothing is pickled on the way there; whether something can be pickled depends on the value, and return values pile up over the life of a session.", "anchors": ["rocketry/core/parameters/parameters.py:Parameters.__getstate__", "rocketry/core/utils/pickle.py:is_pickleable", "rocketry/core/task.py:Task.run_as_process", "rocketry/core/task.py:Task.__getstate__", "rocketry/session.py:Session._copy_pickle", "rocketry/core/schedule.py:Scheduler.handle_logs"]}
{"id": "C71", "title": "Settings given are the settings used", "statement": "A setting given when a session or application is made (in a dict, as a keyword, or by its deprecated name) is the session's setting, a setting that is not given has its default, and one that is set later has the new value from then on; no other session's settings change. A task goes by its own execution, multilaunch, daemon, run id and timeout options, or else by what its session's settings say at that moment. What is not a setting, or is given twice, is refused.", "quantifier": "all dicts and keywords, all sequences of making sessions, applications, Config objects and tasks and of setting settings, all conversions pydantic may make", "why_tests_cant": "settings are few but their combinations, the orders in which sessions, tasks and changes come and the misspellings are not; that something given is silently not used shows in no test of what is used", "anchors": ["rocketry/session.py: Config, Session._get_config, Session.__init__", "rocketry/application.py: Rocketry.__init__, run, serve", "rocketry/core/task.py: Task fields, get_execution, get_run_id, run_as_process, _check_termination, __call__", "rocketry/core/schedule.py: is_task_runnable, tasks"]}
{"id": "C72", "title": "Tasks created and removed while the scheduler runs", "statement": "Tasks may be created and removed while the scheduler runs. A task created is considered from the next cycle on, a task removed is not started any more. Removing a task does not disturb the others: the scheduler goes on, what its last run did is recorded for that run and no other task, processes never exceed the limit, everything has ended when the session is over, and a task created (anew) goes by what the log says of it.", "quantifier": "all tasks, all sequences and moments of creating, adding again, removing, disabling and ending, all log histories, priorities and start conditions", "why_tests_cant": "it takes a removal at a certain point between a run's end and the scheduler's next look at its records; tests create and remove tasks before the scheduler starts", "anchors": ["rocketry/core/schedule.py: tasks, run_cycle, handle_logs, startup, _shut_down_tasks, count_process_tasks_alive, wait_task_alive", "rocketry/session.py: add_task, create_task, remove_task, __getitem__", "rocketry/core/task.py: Task.delete, set_cached, start_async, _lock_to_run_log, _set_status", "docs/cookbook/controlling_runtime.rst"]}
{"id": "C73", "title": "Periods put together are a set", "statement": "a & b & c and a | b | c (All, Any) mean the same whatever the order the periods are given in and however often each is given, and in every run of the program; a period given is left out only if one with the same windows is there; periods that compare equal have the same windows.", "quantifier": "all periods, orders, repetitions, groupings, hashes and moments", "why_tests_cant": "the members are kept in a frozenset, whose order depends on hashes (random for strings) and on insertion; a test sees one order", "anchors": ["rocketry/core/time/base.py: All, Any, TimeInterval.__eq__, TimeDelta.__eq__", "rocketry/time/delta.py: TimeSpanDelta.__eq__", "rocketry/time/interval.py: RelativeDay", "rocketry/time/cron.py: Cron"]}
{"id": "C74", "title": "The times on a task's records are those of the run", "statement": "Every outcome record of a run says when that run began and ended and how long it took: the start is the one its start record says, the end is when it ended and the runtime is the time between, also in repositories of TaskLogRecord and TaskRunRecord.", "quantifier": "all runs, executions, overlaps of runs of one task, clock readings and settings of force_status_from_logs", "why_tests_cant": "the start is looked up from the task when the outcome is logged; tests have one run at a time and only look at the types of the fields", "anchors": ["rocketry/core/task.py: Task._set_status, Task._get_last_action, Task.log_record, Task.run_as_thread, Task._run_as_process", "rocketry/log/log_record.py: TaskLogRecord", "rocketry/pybox/time/convert.py: to_timedelta, numb_to_timedelta"]}
{"id": "C75", "title": "A task scheduled once a period is run once a period", "statement": "While a session runs, a task that is started by its condition alone is recorded as run at most once in each window of its period (minutely, hourly, daily...running once), at least X apart with every(X), and with after_success and the like only after an outcome of the other task that none of its earlier runs has used; and a task that is to succeed once in the period is not run again in it after it did. This holds whatever the other tasks do, with every way of execution, when records cannot be written, runs fail, are killed or terminated, and when the session is shut down.", "quantifier": "all sessions, tasks, executions, conditions that imply the one in question, failures, orders of events and moments", "why_tests_cant": "the condition is looked at, and the run recorded, at different moments, by code that other tasks, threads and processes interleave with; tests run a few cycles of a few tasks that behave", "anchors": ["rocketry/core/schedule.py: Scheduler.serve, run_cycle, is_task_runnable, handle_logs, startup, shut_down", "rocketry/core/task.py: Task.start_async, _run_as_async, _run_as_thread, _run_as_process, _lock_to_run_log, _set_status, set_cached", "rocketry/conditions/task/task.py: TaskRunnable, TaskExecutable, DependSuccess", "rocketry/conditions/api.py: every, daily, after_success"]}
{"id": "C76", "title": "A task that is due is run", "statement": "In a running session, a task whose start condition holds throughout a cycle of the scheduler is run in that cycle, whatever other tasks there are and in whatever order they come. So a task scheduled once a period is run in every window of the period that a whole cycle falls in; a task that is to succeed once a period is run in the cycle unless it already did or has used up its retries; with every(X) a cycle in which it is not run had a start (or outcome) less than X before it; and a task that follows another is run once an outcome of the other is there.", "quantifier": "all sessions, orders of tasks, conditions that follow from the one in question, cycles, periods, histories and moments; the task is enabled, may be started and records can be written", "why_tests_cant": "that something does not happen shows only after waiting; tests wait for a few cycles of a few tasks, and starvation or a missed window depends on the other tasks and on the moments", "anchors": ["rocketry/core/schedule.py: Scheduler.serve, run_cycle, is_task_runnable", "rocketry/core/task.py: Task.is_runnable, start_async, _set_status, set_cached", "rocketry/conditions/task/task.py: TaskRunnable, TaskExecutable, DependSuccess", "rocketry/conditions/api.py: every, daily, after_success"]}
{"id": "C77", "title": "A parameter reaches the task whatever its name", "statement": "A parameter of the session, of the task, of a manual request or of the function's signature reaches the task under the name it was given and with its own value, whatever that name is and whatever the other parameters are called; no name keeps a task from being run.", "quantifier": "all names, values, sources of parameters, tasks, executions and moments", "why_tests_cant": "parameter sets are put together by passing them as keyword arguments to a constructor with parameters of its own; a test would have to use just those names", "anchors": ["rocketry/core/parameters/parameters.py: Parameters.__init__, __or__", "rocketry/core/task.py: Task.get_extra_params, start_async, _run_as_async", "rocketry/tasks/func.py: FuncTask.get_task_params"]}
{"id": "C78", "title": "Comparing conditions", "statement": "Conditions that compare equal (a == b) are true at the same moments and raise the same errors; a condition equals itself and one built the same way from the same parts; if a == b then b == a; a != b is the opposite of a == b; comparing two conditions changes neither.", "quantifier": "all conditions, also combined with &, | and ~, all bounds, attributes and moments", "why_tests_cant": "the classes mix three definitions of equality, and for some of them the operators also build conditions; a test compares a few pairs and does not look at the operands afterwards", "anchors": ["rocketry/core/condition/base.py: BaseCondition.__eq__, _ConditionContainer.__eq__, Not.__eq__, BaseComparable.__eq__, __ne__, _set_comparison"]}
{"id": "C79", "title": "The text of a duration is read as the duration", "statement": "The parts a duration is split into (days, hours, minutes and so on) add up to the duration, each less than one of the next larger unit; and the text written for a duration, in full or abbreviated, is read by to_timedelta as that duration.", "quantifier": "all durations, sets of units and formats", "why_tests_cant": "the parts are computed with floats, and the writer and the reader have unit names of their own; a test writes a few durations and reads a few texts", "anchors": ["rocketry/pybox/time/convert.py: timedelta_to_dict, timedelta_to_str, to_timedelta, string_to_timedelta"]}
{"id": "C80", "title": "Runs and requests leave parameter sets alone", "statement": "Starting and running a task changes nobody's parameters: those of the session, of the task, of other tasks and the ones given to task.run() stay as they are until the user changes them, also when the start fails. What a request asks for is what was given then, and a run gets the parameters as they were at its start, whatever is changed before it begins. Changing the parameters of one task changes no other's.", "quantifier": "all sessions, tasks, executions, parameters, requests and orders of what happens", "why_tests_cant": "a set that is handed on without being copied shows only when it is changed later, in a second run or another task; tests look at one run", "anchors": ["rocketry/core/parameters/parameters.py: Parameters.__init__, copy, update, __or__, pre_materialize", "rocketry/core/task.py: Task.parse_parameters, run, get_extra_params, _get_direct_params, get_task_params, start_async, run_as_thread, run_as_process", "rocketry/tasks/func.py: FuncTask._set_descr, get_task_params"]}
{"id": "C81", "title": "What a process records about its run reaches the log whole", "statement": "A record of a run in a process of its own is stored as it would be had the task been run in the main process: the same text, message, traceback, action and other fields; the return value of a success is handed over and not stored. What the task's code itself logs does not disturb the scheduler.", "quantifier": "all records, messages, exceptions, actions and numbers of handlers", "why_tests_cant": "the record is formatted in one process, stripped of what cannot be pickled, changed again by the scheduler and formatted again; tests look for a part of the traceback in a few records", "anchors": ["rocketry/log/handlers.py: QueueHandler.prepare", "rocketry/core/schedule.py: Scheduler.handle_logs", "rocketry/core/task.py: Task.log_record, Task._set_status, Task._run_as_process"]}
{"id": "C82", "title": "What a command comes to is what its task comes to", "statement": "A command task succeeds if and only if its command can be started and ends with code 0, within the task's timeout if it has one, and then returns what the command printed; else it fails, with the code and the error output if the command ended with another code. When the run is over the command is over too: ended, or killed at the timeout. The command is started with the options in kwds_popen, and otherwise with the task's cwd and shell and with pipes.", "quantifier": "all commands and what they do, timeouts, directories and options", "why_tests_cant": "a command may end at any moment, with any code or never; tests run a few commands that end at once, and none with a timeout", "anchors": ["rocketry/tasks/command.py: CommandTask.get_kwargs_popen, execute", "rocketry/core/task.py: Task.parse_timeout"]}
{"id": "C83", "title": "The code of a code task is run as a script", "statement": "A code task runs its code as a script in which the parameters are variables from the start: it returns what the code leaves in the output variable, or None, and fails when the script would.", "quantifier": "all code, parameters and output variables", "why_tests_cant": "there are as many scripts as one can write; tests run a few lines with one function that uses nothing but its argument", "anchors": ["rocketry/tasks/code.py: CodeTask.execute"]}
{"id": "C84", "title": "Comparing arguments and parameter sets", "statement": "Parameter sets compare equal if and only if they have the same names and equal values under them, and != is the opposite. Arguments that compare equal give a task the same value; if a == b then b == a; an argument equals one built the same way; comparing them is never an error.", "quantifier": "all parameter sets, arguments, values, sessions and tasks", "why_tests_cant": "arguments are compared by the value they give outside of any task, which is not what they give a task; a test compares a few arguments of one kind", "anchors": ["rocketry/core/parameters/parameters.py: Parameters.__eq__, __ne__", "rocketry/core/parameters/arguments.py: BaseArgument.__eq__", "rocketry/args/builtin.py: Arg.__eq__", "rocketry/args/secret.py: Private.__eq__"]}
