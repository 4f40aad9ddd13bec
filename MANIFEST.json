{
 "claims": [
  {
   "property": "C01",
   "status": "proved",
   "theorems": [
    "c01_overlaps_iff_shared_moment",
    "c01_overlaps_symmetric",
    "c01_overlaps_iff_shared_microsecond"
   ],
   "note": "Dense time (Q) for all closedness combinations; microsecond time for left-included intervals, which is what the periods produce."
  },
  {
   "property": "C02",
   "status": "proved",
   "theorems": [
    "c02_contains_is_membership",
    "c02_intersection_exact",
    "c02_intersection_raises_iff_apart",
    "c02_intersection_no_other_outcome",
    "c02_is_empty_iff_no_moment",
    "c02_intersection_exact_microsecond"
   ],
   "note": "Dense time for all closedness; intersection also at microsecond resolution."
  },
  {
   "property": "C03",
   "status": "proved",
   "theorems": [
    "c03_membership",
    "c03_membership_clock_strings",
    "c03_clock_strings_accepted",
    "c03_membership_integers",
    "c03_integers_accepted",
    "c03_integers_rejected",
    "c03_membership_from",
    "c03_membership_until",
    "c03_membership_at",
    "c03_at_accepted",
    "c03_membership_starting",
    "c03_membership_weekday_names",
    "c03_membership_weekday_times",
    "c03_right_closed"
   ],
   "note": "All datetimes, all accepted anchors: clock strings, integers, weekday names with/without time, open-ended ranges, at(), starting(). Quarter-of-hour strings and dict anchors are not modelled."
  },
  {
   "property": "C04",
   "status": "proved",
   "theorems": [
    "c04_next_start",
    "c04_next_end",
    "c04_prev_start",
    "c04_prev_end"
   ],
   "note": "Earliest/latest over the whole family of boundary moments."
  },
  {
   "property": "C05",
   "status": "proved",
   "theorems": [
    "c05_rollforward",
    "c05_membership_agrees",
    "c05_in_period_iff_in_rollforward",
    "c05_empty_period_diverges"
   ],
   "note": "Full specification for every accepted period containing a moment; the empty corner (start at the end of the cycle, end 0) is shown to recurse for ever (c05_empty_period_diverges)."
  },
  {
   "property": "C06",
   "status": "proved",
   "theorems": [
    "c06_rollback",
    "c06_rollback_full_cycle"
   ],
   "note": "Non-full periods and full cycles separately; a rollback at an exact start is the single moment (both sides closed)."
  },
  {
   "property": "C07",
   "status": "partial",
   "theorems": [
    "c07_calendar_first_day",
    "c07_calendar_next_day",
    "c07_calendar_roundtrip",
    "c07_membership_integers",
    "c07_membership_names",
    "c07_membership_times",
    "c07_membership_at",
    "c07_rollforward_partial",
    "c07_rollback_partial",
    "c07_rollback_full_partial",
    "c07_boundaries_partial",
    "c07_whole_month_rollback",
    "c07_missing_day_refuted",
    "c07_whole_month_rollforward_refuted",
    "c07_rollback_future_refuted"
   ],
   "note": "Membership in full for every day anchor and every month length; the calendar itself is proved against the day-after rule. Rolls proved when both anchors lie in the first 28 days (and rollback for whole months). Refuted for days 29-31 in short months, for rollforward of whole months, and for open-ended ranges whose rollback ends in the future."
  },
  {
   "property": "C08",
   "status": "partial",
   "theorems": [
    "c08_membership_integers",
    "c08_membership_names",
    "c08_membership_at",
    "c08_months_accepted",
    "c08_next_start_partial",
    "c08_prev_start_partial",
    "c08_rollforward_common_year_refuted",
    "c08_year_to_date_refuted"
   ],
   "note": "Membership exact (one microsecond at the end of the last month left out, as shown). Boundaries exact up to a drift of 0-2 days that the theorem gives explicitly; refuted as stated in common years."
  },
  {
   "property": "C09",
   "status": "proved",
   "theorems": [
    "c09_contains",
    "c09_total",
    "c09_rollforward",
    "c09_rollforward_gone",
    "c09_rollback",
    "c09_rollback_future",
    "c09_always",
    "c09_never",
    "c09_reversed_raises"
   ],
   "note": "Naive datetimes. A reversed interval (start > end) is accepted by the constructor and raises ValueError when rolled (c09_reversed_raises)."
  },
  {
   "property": "C10",
   "status": "proved",
   "theorems": [
    "c10_delta_contains",
    "c10_span_contains",
    "c10_span_contains_open",
    "c10_delta_rolls",
    "c10_span_rolls",
    "c10_span_reversed_raises",
    "c10_window_now",
    "c10_span_window_now",
    "c10_no_reference_raises",
    "c10_signs_irrelevant"
   ],
   "note": "TimeDelta/TimeSpanDelta with given near/far; the open far end is bounded by the library's supported range."
  },
  {
   "property": "C11",
   "status": "proved",
   "theorems": [
    "c11_rollforward",
    "c11_rollforward_library",
    "c11_rollforward_sound",
    "c11_rollforward_returned",
    "c11_contains",
    "c11_no_common_moment_diverges",
    "c11_rollback",
    "c11_rollback_library",
    "c11_rollback_sound"
   ],
   "note": "Compositional over sub-periods obeying the rolling contract, and instantiated for clock, week, month (first 28 days), fixed periods and nested &, |. Without a common moment the call never returns (c11_no_common_moment_diverges); Python's recursion limit is not modelled."
  },
  {
   "property": "C12",
   "status": "partial",
   "theorems": [
    "c12_rollforward_partial",
    "c12_rollforward_recurring",
    "c12_contains_recurring",
    "c12_two_overlapping_merged",
    "c12_rollback_partial",
    "c12_merge_refuted",
    "c12_contains_refuted",
    "c12_rollback_refuted"
   ],
   "note": "Merging of three or more overlapping occurrences is refuted; membership fails at the exact end of a fixed interval; rollback can be empty at an instant where one member begins. Proved otherwise (see _partial hypotheses)."
  },
  {
   "property": "C13",
   "status": "partial",
   "theorems": [
    "c13_build",
    "c13_all",
    "c13_any",
    "c13_contains",
    "c13_contains_terminates",
    "c13_all_of_always_refuted"
   ],
   "note": "Members preserved in the supported range for every expression built with & and |. The direct constructor All(always) is refuted: accepted, but every use raises TypeError."
  },
  {
   "property": "C14",
   "status": "partial",
   "theorems": [
    "c14_membership_partial",
    "c14_answers_partial",
    "c14_next_match_partial",
    "c14_recognised_partial",
    "c14_numeric_step_range_refuted",
    "c14_value_step_refuted",
    "c14_star_in_list_refuted",
    "c14_day_of_week_step_refuted",
    "c14_day_of_week_0_7_refuted",
    "c14_month_end_refuted",
    "c14_day_31_refuted",
    "c14_next_match_month_refuted"
   ],
   "note": "Membership agrees with crontab whenever the code answers, for lists, values, names, ranges and steps within cron_ok; every matching moment is recognised at once, months or not, unless the 31st is named in a shorter month (c14_recognised_partial); answers for all moments and next occurrences are proved for lines without month restriction and days of month up to 28. Refuted: numeric step ranges in 1-based fields, value/step, a star inside a list, steps over days of the week, 0-7, last microsecond of a month, day 31 in February, rolling forward over months."
  },
  {
   "property": "C15",
   "status": "proved",
   "theorems": [
    "c15_observe_is_short_circuit",
    "c15_boolean_value",
    "c15_unreached_parts_do_not_matter",
    "c15_errors_come_from_reached_parts",
    "c15_any_flattening",
    "c15_all_flattening",
    "c15_de_morgan_and",
    "c15_de_morgan_or",
    "c15_double_negation"
   ],
   "note": "Condition trees with exceptions and the trace of observed parts; atoms are an arbitrary environment."
  },
  {
   "property": "C16",
   "status": "partial",
   "theorems": [
    "c16_comparison_chain",
    "c16_from_magic",
    "c16_bounds_are_shared",
    "c16_original_unchanged_refuted",
    "c16_same_operator_refuted",
    "c16_non_integer_bound_refuted"
   ],
   "note": "Holds for a fresh condition compared once per operator and for from_magic. Refuted: building a comparison alters the original (shared dictionary), the same operator twice keeps only the last bound, a non-integer bound is always met."
  },
  {
   "property": "C17",
   "status": "partial",
   "theorems": [
    "c17_cache_agrees_with_log",
    "c17_answer_is_the_count",
    "c17_cache_is_exact_with_one_clock_reading",
    "c17_two_clock_readings_refuted"
   ],
   "note": "Agreement for every comparison, action set and span when the cache holds the latest record times, which is shown to be kept by bookkeeping with one clock reading per action. The code reads the clock twice (cache, then record): refuted when a window starts between the two."
  },
  {
   "property": "C18",
   "status": "partial",
   "theorems": [
    "c18_decision",
    "c18_never_outside",
    "c18_occurrences_are_windows",
    "c18_no_restart_after_outcome",
    "c18_starts_bounded",
    "c18_startable_at_first_microsecond_refuted"
   ],
   "note": "Decision iff, no restart after success/inaction/termination, at most 1+retries starts per occurrence (one more per crash), for every fixed-length cyclic period. Refuted only at the first microsecond of a whole-cycle occurrence, where the previous occurrence is still the one looked at. One clock reading per decision is assumed."
  },
  {
   "property": "C19",
   "status": "proved",
   "theorems": [
    "c19_at_most_once_per_window",
    "c19_decision",
    "c19_every_starts_apart",
    "c19_every_after_outcome",
    "c19_every_decision"
   ],
   "note": "At most one start per window for any period whose spans start no later than the window; instantiated for clock/week periods; every(X) in full. Cron windows: see C14."
  },
  {
   "property": "C20",
   "status": "partial",
   "theorems": [
    "c20_holds_iff_newer_outcome",
    "c20_used_up_by_a_start",
    "c20_new_outcome_triggers",
    "c20_starts_at_most_outcomes",
    "c20_same_time_refuted",
    "c20_finish_after_termination_refuted"
   ],
   "note": "Refuted where an outcome has the same time as a start logged before it, and for after_finish with terminated tasks."
  },
  {
   "property": "C21",
   "status": "partial",
   "theorems": [
    "c21_only_after_failure",
    "c21_zero_never",
    "c21_minus_one_always",
    "c21_at_most_n_failures",
    "c21_exact",
    "c21_at_most_n_retries",
    "c21_same_time_refuted"
   ],
   "note": "Refuted (one retry too few) when a failure and a success carry the same time."
  },
  {
   "property": "C22",
   "status": "partial",
   "theorems": [
    "c22_main",
    "c22_async_start",
    "c22_async_end",
    "c22_session",
    "c22_no_stray",
    "c22_killed_refuted",
    "c22_terminated_refuted",
    "c22_async_setup_refuted",
    "c22_finish_refuted",
    "c22_restart_refuted"
   ],
   "note": "c22_session is the property over whole sessions, for all four executions, any moves of threads, coroutines and child processes in between, and however serve ends: every started run has its one start record, then its one outcome record, under its own id; a termination may be recorded besides (c22_terminated_refuted shows the two outcomes). c22_no_stray: nothing else is written under run ids. Hypotheses: records are written, nothing but the tasks' own code fails, no child dies by itself, ids are not reused, hooks do not fail. c22_main, c22_async_* are the statements for one start. Refuted where these hypotheses fail: setup failing in a coroutine, process_finish failing, a restart asked for by the run, a child killed."
  },
  {
   "property": "C23",
   "status": "proved",
   "theorems": [
    "c23_classified",
    "c23_failure_propagates",
    "c23_leaving_propagates"
   ],
   "note": "Every way the code can end is classified; with failing process_finish, hooks after the run or process_failure being excluded."
  },
  {
   "property": "C24",
   "status": "partial",
   "theorems": [
    "c24_status_is_last_action",
    "c24_last_times",
    "c24_others_unchanged",
    "c24_times_refuted",
    "c24_failed_logging"
   ],
   "note": "Status and noted times in full; the cached time equals the record time only when one clock reading served both (refuted otherwise). Failing log handlers covered."
  },
  {
   "property": "C25",
   "status": "partial",
   "theorems": [
    "c25_recovery",
    "c25_twice_adds_nothing",
    "c25_cache_from_log",
    "c25_latest_is_last",
    "c25_same_time_refuted"
   ],
   "note": "For logs in which the task's record times increase; a start and its outcome with equal times are mistaken for a crash (refuted)."
  },
  {
   "property": "C26",
   "status": "proved",
   "theorems": [
    "c26_one_live_run"
   ],
   "note": "Every task state observed during serve, for every oracle (interleavings, failures) and every execution prefix (fuel)."
  },
  {
   "property": "C27",
   "status": "proved",
   "theorems": [
    "c27_process_limit"
   ],
   "note": "As C26; counts runs of the session's tasks. Removing a task from the session during a run is not modelled."
  },
  {
   "property": "C28",
   "status": "proved",
   "theorems": [
    "c28_considered_by_priority",
    "c28_started_by_priority",
    "c28_higher_had_its_turn",
    "c28_each_considered_once"
   ],
   "note": "All task sets, any outside moves between the steps, and also for cycles that raise or are cut short. Order of considering and of starting; each cyclic task considered once in a completed cycle."
  },
  {
   "property": "C29",
   "status": "partial",
   "theorems": [
    "c29_disabled_not_started",
    "c29_requests_in_order",
    "c29_taken_by_a_start",
    "c29_requested_starts",
    "c29_requested_process_starts",
    "c29_special_request_refuted"
   ],
   "note": "Order and parameters of requests over a whole session with any interleaving of requests; a requested cyclic task starts in the next completed cycle (a process: on its turn, given a free slot). A disabled task does not start while nobody requests or enables it. Refuted for tasks marked on_startup/on_shutdown, whose requests cycles do not serve."
  },
  {
   "property": "C30",
   "status": "partial",
   "theorems": [
    "c30_held_starts_nothing",
    "c30_starts_only_when_released",
    "c30_released_resumes",
    "c30_held_cycles_counted_refuted",
    "c30_held_shutdown_starts_refuted"
   ],
   "note": "No start in cycles while on hold, for any moves but a release; starts only on turns that found the scheduler not on hold; cycles resume after release. Refuted: cycles are counted while on hold, and shutdown tasks start on hold."
  },
  {
   "property": "C31",
   "status": "partial",
   "theorems": [
    "c31_runs_told_apart",
    "c31_only_late",
    "c31_late_terminated",
    "c31_zero_timeout_refuted"
   ],
   "note": "c31_only_late and c31_late_terminated: at a check, when neither the end condition holds nor termination was requested, exactly the task's live runs older than its timeout are terminated (a run that ended by itself before its turn in the loop is the exception in the second), never those of a permanent task; afterwards each is over or, being a thread, told to stop. Both need run identities to be distinct, which c31_runs_told_apart proves for every session. c31_zero_timeout_refuted: a timeout of zero is ignored (falsy) and the session's is used. Not covered: that a check which raises midway reaches all runs (it does not, see C32)."
  },
  {
   "property": "C32",
   "status": "partial",
   "theorems": [
    "c32_all_terminated",
    "c32_only_its_runs",
    "c32_loud_raises",
    "c32_check_interrupted_refuted",
    "c32_request_lost_refuted"
   ],
   "note": "c32_all_terminated, c32_only_its_runs: a completed check of a task whose end condition holds (also when it raises and that is silenced) or whose termination was requested terminates exactly its runs and clears the request; otherwise c31_only_late applies; c32_loud_raises: an unsilenced error of the end condition propagates and terminates nothing. c32_check_interrupted_refuted: an exception stored in one run aborts the check before the other runs are reached. c32_request_lost_refuted: a request is cleared when another run of the same task logs its own termination first, so the remaining run is never terminated."
  },
  {
   "property": "C33",
   "status": "partial",
   "theorems": [
    "c33_no_live_run",
    "c33_hook_failure_refuted",
    "c33_instant_terminates",
    "c33_force_persists_refuted",
    "c33_repeated_ignored_refuted",
    "c33_gentle_waits",
    "c33_permanent_terminated"
   ],
   "note": "No run is live after serve if hooks do not fail; instant, forced and erroneous shutdowns terminate every run; an ordinary one terminates no run that has time and the permanent ones are terminated. Refuted: a failing shutdown hook leaves runs alive; a force flag stays set for the next session; a forced shutdown that comes while the scheduler already waits is not heard."
  },
  {
   "property": "C34",
   "status": "proved",
   "theorems": [
    "c34_cycles_start_only_cyclic",
    "c34_startup_tasks_start",
    "c34_shutdown_tasks_start"
   ],
   "note": "Cycles start only cyclic tasks; startup and shutdown tasks without a condition of their own, not disabled and not processes (those need a free slot, see C27) are started in a startup or shutdown that returns."
  },
  {
   "property": "C35",
   "status": "partial",
   "theorems": [
    "c35_restored",
    "c35_one_cycle",
    "c35_only_named",
    "c35_unnamed_requested_refuted",
    "c35_named",
    "c35_named_process_refuted",
    "c35_unknown_refuted"
   ],
   "note": "Settings and shut condition are restored for every outcome, at most one cycle begins, and a task that is neither named nor requested does not start. Every named task not run in a process starts when the one cycle is completed and nobody holds the scheduler (c35_named). Refuted: a task that is not named but has a manual request waiting is run although session.run disables it; a named task run in a process may find no process free, does not run, and its request stays queued; names no task has are ignored silently."
  },
  {
   "property": "C36",
   "status": "partial",
   "theorems": [
    "c36_unique_partial",
    "c36_each_operation",
    "c36_creation",
    "c36_rename_ignore_refuted",
    "c36_two_sessions_refuted",
    "c36_add_rename_refuted"
   ],
   "note": "Unique names and lookups for every sequence of creations, additions, renames, removals, inclusions and policy changes that leaves the session's tasks to it and renames none of them under 'ignore'. Refuted otherwise: renaming under 'ignore', tasks shared by two sessions, and adding under 'rename'. Missing: concurrent changes."
  },
  {
   "property": "C37",
   "status": "partial",
   "theorems": [
    "c37_precedence",
    "c37_main_defined",
    "c37_overridden_refuted",
    "c37_base",
    "c37_base_secret_refuted",
    "c37_base_unrelated_refuted",
    "c37_request"
   ],
   "note": "Proved for function tasks: precedence request > own > extras > session, extras and session values only for keys in the signature; for tasks using the base class's prefilter (command, code, maintenance) the same precedence in all four executions (c37_base), but session parameters are evaluated without the task: c37_base_* refutations. c37_overridden_refuted: values that are overridden are still evaluated and can fail the run. Parameters called self, _param or type_ are left out of this model: see C77."
  },
  {
   "property": "C38",
   "status": "proved",
   "theorems": [
    "c38_mapping",
    "c38_without_task",
    "c38_shown",
    "c38_reaches_task"
   ],
   "note": "Mapping access, printing and copies show a private value only as its mask; the task's code receives the value itself (c38_reaches_task)."
  },
  {
   "property": "C39",
   "status": "partial",
   "theorems": [
    "c39_pipe",
    "c39_session_parameter",
    "c39_return",
    "c39_environment",
    "c39_command_line",
    "c39_unknown_task_refuted",
    "c39_last_word_refuted"
   ],
   "note": "Each built-in argument reads what it names, with its default only when the value is missing; a pipe's value is its first member that is not missing, however it was nested. Refuted: Return of an unknown task raises ValueError, so neither its default nor the rest of the pipe is used; likewise a command line option that is the last word."
  },
  {
   "property": "C40",
   "status": "partial",
   "theorems": [
    "c40_success",
    "c40_failure",
    "c40_process",
    "c40_child",
    "c40_kept",
    "c40_argument",
    "c40_process_lost_refuted"
   ],
   "note": "Main, thread and async runs store their value exactly on success; process values are stored when their records are read by the scheduler loop; values are only added over a session. Refuted: the value of a process run is dropped when its record is read while another process task is being started."
  },
  {
   "property": "C41",
   "status": "partial",
   "theorems": [
    "c41_paired",
    "c41_resumed",
    "c41_in_order_partial",
    "c41_raising_before_refuted",
    "c41_raising_after_refuted",
    "c41_raising_around_refuted",
    "c41_raising_inside_refuted"
   ],
   "note": "Hooks that do not raise are paired and ordered; in general each runs at most once per side and in order. Refuted: a raising hook leaves others unresumed or the code unrun."
  },
  {
   "property": "C42",
   "status": "proved",
   "theorems": [
    "c42_smallest",
    "c42_distinct"
   ],
   "note": "The increment run id is the smallest positive id not used by a tracked run, hence distinct from theirs; over any history of starts and removals tracked ids are distinct."
  },
  {
   "property": "C43",
   "status": "partial",
   "theorems": [
    "c43_grammar",
    "c43_printed",
    "c43_unknown",
    "c43_ends",
    "c43_spaces_refuted"
   ],
   "note": "Proved for every string of the grammar (with the item parser as a parameter): what the condition answers, which items it looks at, the first unknown item, termination; and the round trip of fully parenthesised printing. Refuted: white space next to a parenthesis at the end of the string or of another parenthesis is taken for an empty item."
  },
  {
   "property": "C44",
   "status": "proved",
   "theorems": [
    "c44_match",
    "c44_and",
    "c44_or",
    "c44_not",
    "c44_filter",
    "c44_filter_stops",
    "c44_from_dict",
    "c44_from_dict_unknown",
    "c44_from_dict_twice",
    "c44_from_kwargs",
    "c44_from_kwargs_tuple"
   ],
   "note": "Items are dictionaries with distinct keys and values None, integers, strings or naive datetimes; dateutil parsing, fromtimestamp and re.match are parameters. Matching is exact where comparisons can be made; elsewhere the left operand decides first."
  },
  {
   "property": "C45",
   "status": "partial",
   "theorems": [
    "c45_sum",
    "c45_clock",
    "c45_negated",
    "c45_terminates",
    "c45_unknown_unit",
    "c45_no_unit",
    "c45_trailing",
    "c45_trailing_refuted",
    "c45_colon_refuted"
   ],
   "note": "Proved for every sequence of number/unit pairs with separators, an optional clock part and leading signs, to the microsecond with half-even rounding; unknown units and missing units raise. Refuted: a separator after the last unit raises, and a colon right after a number is taken for a clock time. Characters are ASCII and floats exact rationals."
  },
  {
   "property": "C46",
   "status": "proved",
   "theorems": [
    "c46_silenced_is_false",
    "c46_loud_leaves_cycle",
    "c46_loud_leaves_scheduler"
   ],
   "note": "c46_silenced_is_false: with silence_cond_check a whole session is equal to the one in which every raising start condition answers false instead (so all other tasks are treated as they would be anyway). c46_loud_leaves_cycle, c46_loud_leaves_scheduler: without it, changing any answer to an exception either changes nothing (it is not asked for) or the exception leaves the cycle and the scheduler does not end normally. CancelledError, a BaseException, is never silenced."
  },
  {
   "property": "C47",
   "status": "partial",
   "theorems": [
    "c47_recorded",
    "c47_not_recorded",
    "c47_silenced_partial",
    "c47_silenced_refuted",
    "c47_threads_reported",
    "c47_thread_marked",
    "c47_thread_once_refuted",
    "c47_async_refuted"
   ],
   "note": "Recording is characterised for every record; with silence_task_logging the error leaves the scheduler only if a run was terminated (and then it can, refuted); thread failures are reported by the end of the cycle; the failure to record the end of an asynchronous run is lost (refuted)."
  },
  {
   "property": "C48",
   "status": "partial",
   "theorems": [
    "c48_included",
    "c48_succeeds",
    "c48_part_included_refuted",
    "c48_order_refuted",
    "c48_left_out_refuted",
    "c48_by_function_refuted"
   ],
   "note": "A successful inclusion does what is claimed, and it succeeds when the prefixed names are free. Refuted: an inclusion that raises leaves the group partly included; success can depend on the iteration order of the set of tasks; 'rename' leaves tasks out silently; functions no longer find their prefixed task. Group session parameters are not modelled here."
  },
  {
   "property": "C49",
   "status": "partial",
   "theorems": [
    "c49_listed",
    "c49_unknown",
    "c49_joined",
    "c49_nested_refuted"
   ],
   "note": "Exactly the dependencies of the outermost combination are listed (all of those joined by & alone or | alone), and an unknown name makes the listing raise. Refuted for dependencies nested in another combination."
  },
  {
   "property": "C50",
   "status": "partial",
   "theorems": [
    "c50_one_run",
    "c50_same_partial",
    "c50_accumulates",
    "c50_repeated_refuted",
    "c50_no_form"
   ],
   "note": "Proved for string commands and for runs without parameters; one run of a list command is right too. Refuted for later runs of list commands, whose arguments accumulate. Without argform an undashed parameter raises."
  },
  {
   "property": "C51",
   "status": "partial",
   "theorems": [
    "c51_number",
    "c51_string",
    "c51_timedelta",
    "c51_never_refuted"
   ],
   "note": "Proved for numbers, strings and timedeltas. Refuted for the string never, which a task accepts and the session does not."
  },
  {
   "property": "C52",
   "status": "partial",
   "theorems": [
    "c52_one_repeated",
    "c52_pooled",
    "c52_two_refuted"
   ],
   "note": "Proved when at most one key is repeated. Refuted for two repeated keys, whose values are pooled."
  },
  {
   "property": "C53",
   "status": "partial",
   "theorems": [
    "c53_kwargs_back",
    "c53_query_back",
    "c53_overwritten_refuted",
    "c53_reversed_refuted"
   ],
   "note": "Proved in both directions for values and ranges, one bound of a sort per key and the key on the left. Refuted for a repeated bound and for a bound made with the key on the right."
  },
  {
   "property": "C54",
   "status": "partial",
   "theorems": [
    "c54_unclosed",
    "c54_unbalanced",
    "c54_dropped_refuted",
    "c54_misplaced_refuted",
    "c54_operand_refuted"
   ],
   "note": "Proved: parentheses that do not match are refused, every string ends in a result or an error. Refuted: operands without an operator are dropped, a trailing tilde negates the beginning, an operator can become an operand."
  },
  {
   "property": "C55",
   "status": "partial",
   "theorems": [
    "c55_grammar_partial",
    "c55_unknown",
    "c55_ends",
    "c55_always_refuted"
   ],
   "note": "Proved for items other than always (moments within the supported range). Refuted: always & always gives a period that raises when asked."
  },
  {
   "property": "C56",
   "status": "partial",
   "theorems": [
    "c56_sentences",
    "c56_string",
    "c56_alone",
    "c56_rejected",
    "c56_unknown",
    "c56_terminated_refuted",
    "c56_periods_refuted",
    "c56_param_refuted",
    "c56_starting_refuted",
    "c56_names_refuted",
    "c56_comma_refuted"
   ],
   "note": "Every documented sentence (about 40 forms, any names, times and durations without quotes and line feeds) is proved to give the API call's condition, alone and in combinations. Refuted: the documented 'after task ... terminated' is rejected; 'always', 'never', 'past ...' are registered but raise; 'param ... exists' asks for the letters; 'has ... starting' differs from the API; names with operators or parentheses cannot be written; commas without blank join names."
  },
  {
   "property": "C57",
   "status": "partial",
   "theorems": [
    "c57_syntax",
    "c57_unknown",
    "c57_builtin",
    "c57_string",
    "c57_value",
    "c57_unexpected",
    "c57_missing",
    "c57_argument_refuted",
    "c57_shadowed_refuted",
    "c57_bool_refuted"
   ],
   "note": "Proved for every registered syntax, text, signature and combination: a text fitting one registered syntax (in one way, no other, no built-in sentence) means the function with the groups of the text; its observed value is the function's value on the given values, defaults and resolved arguments; wrong or missing parameters are TypeErrors; built-in sentences are unchanged; other texts are rejected. Refuted: a syntax may be hidden by a built-in one without an error; a value given for a parameter with an Arg default raises TypeError; bool(condition) passes the Arg objects themselves."
  },
  {
   "property": "C58",
   "status": "partial",
   "theorems": [
    "c58_state",
    "c58_past",
    "c58_unchecked",
    "c58_text",
    "c58_same",
    "c58_values_refuted",
    "c58_constructor_refuted",
    "c58_restart_refuted",
    "c58_unrecorded_refuted",
    "c58_combined_refuted"
   ],
   "note": "Proved: state after any history of checks, with a time span or any active period; false before the first check; texts make the task once with the groups as parameters and the same text gives the same condition after any other texts. Refuted: a second text with other parameters raises ValueError (the name of the task is taken); FuncCond-style constructor registers in the default session only; a restart forgets an active check; a value whose record failed stays active for ever; active periods combining a time span never hold (|) or never answer (&)."
  },
  {
   "property": "C59",
   "status": "partial",
   "theorems": [
    "c59_env",
    "c59_env_missing",
    "c59_exists",
    "c59_observed_refuted",
    "c59_argument_refuted"
   ],
   "note": "IsEnv and bool(ParamExists) proved for all sessions and parameters. Refuted: the scheduler observes ParamExists through get_state, which returns nothing, so it never holds; an env given as Arg(...) raises AttributeError."
  },
  {
   "property": "C60",
   "status": "partial",
   "theorems": [
    "c60_between",
    "c60_after",
    "c60_before",
    "c60_on_day",
    "c60_on_moment",
    "c60_months_partial",
    "c60_quarters",
    "c60_time_between",
    "c60_time_after",
    "c60_time_before",
    "c60_cycle_between",
    "c60_cycle_on",
    "c60_unknown_day",
    "c60_unknown_month",
    "c60_no_word",
    "c60_no_day",
    "c60_no_minutes",
    "c60_no_seconds",
    "c60_midnight_refuted",
    "c60_year_end_refuted",
    "c60_year_on_refuted",
    "c60_time_first_refuted",
    "c60_last_refuted",
    "c60_number_refuted",
    "c60_hour_refuted",
    "c60_february_refuted",
    "c60_day_32_refuted"
   ],
   "note": "Proved for every text of the specification in minutes, hours, days, weeks and months, alone and in sentences. Refuted: before 00:00 is always, days of the year are excluded as ends and cannot be points, a time before the day is dropped, last is ignored, numbers of months are refused, hours are read as minutes, days that do not exist are accepted; month names as ends miss a microsecond."
  },
  {
   "property": "C61",
   "status": "partial",
   "theorems": [
    "c61_membership_partial",
    "c61_answers_partial",
    "c61_recognised_partial",
    "c61_same",
    "c61_sentence",
    "c61_sentence_lines",
    "c61_too_many",
    "c61_number",
    "c61_word",
    "c61_empty",
    "c61_malformed",
    "c61_accepted_refuted",
    "c61_short_refuted",
    "c61_hour_refuted",
    "c61_beyond_refuted"
   ],
   "note": "c61_same: every text writing a line is read as that line of C14 (all texts of the grammar, any letter case of names); c61_membership_partial/c61_answers_partial/c61_recognised_partial carry C14 over, with what C14 leaves out. Refuted: malformed lines are accepted when written and raise only when asked (c61_accepted_refuted), a lone field counts as a line, a clock time counts as an hour, ranges with steps may exceed the field."
  },
  {
   "property": "C62",
   "status": "partial",
   "theorems": [
    "c62_stack",
    "c62_log",
    "c62_log_exact",
    "c62_log_settled_partial",
    "c62_no_ids",
    "c62_no_ids_partial",
    "c62_more_than_refuted",
    "c62_overlap_refuted",
    "c62_crash_refuted",
    "c62_between_reversed"
   ],
   "note": "Proved from the run stack for all forms, from logs with run ids for running and less_than, and from logs without run ids for running. For more_than and between from logs the number is of the runs not ended by the end of the window (c62_log_exact), so a run that ended since is still counted (refuted); without run ids overlapping runs are mistaken for each other (refuted); a run cut off by a crash counts as running for ever (refuted)."
  },
  {
   "property": "C63",
   "status": "partial",
   "theorems": [
    "c63_cycles",
    "c63_running",
    "c63_started",
    "c63_not_started_refuted"
   ],
   "note": "Proved for all bounds once the scheduler has started; before that asking raises AttributeError (refuted)."
  },
  {
   "property": "C64",
   "status": "partial",
   "theorems": [
    "c64_recall",
    "c64_launch",
    "c64_unknown",
    "c64_only_on_request",
    "c64_kept",
    "c64_last_cycle",
    "c64_heard_partial",
    "c64_raised",
    "c64_lost_refuted",
    "c64_async_refuted"
   ],
   "note": "Recalled runs are chains of complete sessions (so C33 and the rest hold of each one), a process is launched exactly after a session that was asked to restart and shut down well, restarts only on request (nothing but a request or something raising SchedulerRestart can cause one), and a request ends the loop without another cycle or run. That runs are waited for is c33's gentle shutdown, which covers a restart. c64_heard_partial assumes that the shut condition does not hold after the cycle and nobody shuts down; without that c64_lost_refuted. c64_async_refuted: only tasks executed in the main thread restart by raising."
  },
  {
   "property": "C65",
   "status": "partial",
   "theorems": [
    "c65_ever_partial",
    "c65_this_partial",
    "c65_unknown",
    "c65_no_task",
    "c65_raises_refuted",
    "c65_boundary",
    "c65_boundary_refuted",
    "c65_today_refuted"
   ],
   "note": "Proved for every log, setting and comparison where the task watched has an ordinary start condition and the moment is not the very beginning of the period. Refuted: Task.period reads cond.kwargs, which no condition has, so a condition without a period about a task started by a TaskSucceeded or TaskFinished object raises AttributeError; at the first moment of a day .today looks at the day before; .today.between(10:00, 12:00) asked at nine looks at yesterday."
  },
  {
   "property": "C66",
   "status": "partial",
   "theorems": [
    "c66_kept_partial",
    "c66_session_log_partial",
    "c66_set_repo_partial",
    "c66_default_partial",
    "c66_clock_partial",
    "c66_logger_checked",
    "c66_shared_refuted",
    "c66_group_refuted",
    "c66_child_unreadable_refuted",
    "c66_child_twice_refuted",
    "c66_child_level_refuted",
    "c66_prefix_refuted",
    "c66_text_refuted",
    "c66_clock_refuted"
   ],
   "note": "Proved over arbitrary programs in which the repository and base name of the application are its own, from Rocketry(), set_repo or the session's default repository on. Refuted where they are not: a second application with the same (default) base name hides the repository of the first; tasks of a group log under the default base name; loggers below the base one are unreadable, duplicated or filtered; get_task_log and the deletion of loggers go by the beginning of the name; a logger_name given as a string is not checked; only the first time_func is used."
  },
  {
   "property": "C67",
   "status": "partial",
   "theorems": [
    "c67_fresh_partial",
    "c67_after_finish",
    "c67_process",
    "c67_matching_partial",
    "c67_alone",
    "c67_package",
    "c67_stem",
    "c67_no_root",
    "c67_overlap_refuted",
    "c67_stuck_refuted",
    "c67_matching_refuted",
    "c67_once_refuted",
    "c67_script_name_refuted"
   ],
   "note": "Proved for runs that begin when no earlier run has left its function behind, for every run in a process of its own, and with a bound (since the latest finished run) for all. Refuted: a run that begins while another in the scheduler's process is under way calls the old function; after a run whose parameters raise, no run inside the process ever calls anything, whatever is saved; a change between the start and the process mixes parameters and function; each run executes the file twice; a script's module name keeps the suffix."
  },
  {
   "property": "C68",
   "status": "partial",
   "theorems": [
    "c68_path_partial",
    "c68_path_members",
    "c68_works",
    "c68_beside_partial",
    "c68_order_refuted",
    "c68_assigned_refuted",
    "c68_sys_paths_refuted",
    "c68_stale_refuted",
    "c68_other_refuted",
    "c68_shadow_refuted"
   ],
   "note": "Proved when the added directories are not on sys.path already and sys.path has not been assigned, and for names that have not been imported and no directory on sys.path has. Refuted otherwise: the order of sys.path changes, directories are left on it, sys_paths are never searched (they are Path objects), modules imported for one task are used for all others and never reloaded, and other directories come first."
  },
  {
   "property": "C69",
   "status": "partial",
   "theorems": [
    "c69_present",
    "c69_fixed",
    "c69_time_of_day",
    "c69_every_partial",
    "c69_every_steady_partial",
    "c69_log_partial",
    "c69_once",
    "c69_early_refuted",
    "c69_late_refuted",
    "c69_pause_refuted",
    "c69_failures_refuted",
    "c69_midnight_refuted",
    "c69_cache_refuted",
    "c69_skipped_refuted"
   ],
   "note": "Proved for every zone with at most one clock change around: the present is converted exactly, time-of-day windows and once-per-occurrence follow what the clocks show, constant zones behave as in C17-C25. every(X) measures what the clocks show, so it is early after a change forward and late after one back; failures are not counted for up to an hour after a change forward (a failing task restarts in every cycle); cache and log then disagree; skipped windows do not come. Only TimeDelta and anchored periods; cached single-action conditions."
  },
  {
   "property": "C70",
   "status": "partial",
   "theorems": [
    "c70_same",
    "c70_gets",
    "c70_lost_refuted",
    "c70_precedence_refuted",
    "c70_late_refuted",
    "c70_task",
    "c70_again_refuted",
    "c70_neighbour_refuted",
    "c70_attempts_refuted",
    "c70_start",
    "c70_unrecorded_refuted",
    "c70_twice_refuted",
    "c70_retry_refuted",
    "c70_back",
    "c70_endless_refuted"
   ],
   "note": "Proved: the arguments in a spawned child in closed form, equal to those of a forked one when everything can be pickled and functions called there are self-contained; when a task crosses; what a failed start records; what comes back. Refuted (start method spawn): unpicklable parameters vanish without an error or are replaced by the session's, functions of session parameters raise, a task whose return value is stored cannot be started again, nor any while a finished task cannot be pickled, an unpicklable task fails twice per start. With any start method the success of a function returning something unpicklable is lost and the task counts as running for ever."
  },
  {
   "property": "C71",
   "status": "partial",
   "theorems": [
    "c71_accepted",
    "c71_given",
    "c71_execution",
    "c71_all",
    "c71_twice",
    "c71_later",
    "c71_apart",
    "c71_shared_refuted",
    "c71_task",
    "c71_timeout_refuted",
    "c71_priority_refuted",
    "c71_logger_refuted",
    "c71_misspelt_set",
    "c71_misspelt_refuted",
    "c71_option_refuted",
    "c71_object_refuted",
    "c71_app_refuted",
    "c71_deprecated_refuted",
    "c71_nothing_refuted"
   ],
   "note": "Proved for every sequence of making sessions, applications, Config objects and tasks and of setting settings, with pydantic's conversions as an oracle. Refuted: misspelt names of settings and task options are dropped silently, keywords beside a Config object or an existing session are not looked at, the deprecated name of execution beats the current one, task_priority is used nowhere, a misspelt execution of the session makes tasks start nothing without an error, sessions made with one Config object share it, a zero timeout of a task is not used, and a later task_logger_basename does not reach existing tasks."
  },
  {
   "property": "C72",
   "status": "partial",
   "theorems": [
    "c72_starts",
    "c72_cycles",
    "c72_orderly_no_error",
    "c72_orderly_notes",
    "c72_orderly_bound",
    "c72_orderly_over",
    "c72_memory",
    "c72_removed_starts_refuted",
    "c72_outcome_crashes_refuted",
    "c72_other_blamed_refuted",
    "c72_namesake_refuted",
    "c72_not_counted_refuted",
    "c72_forgotten_refuted"
   ],
   "note": "Proved for all moves of other code: a task starts only if it was in the session when the cycle, startup or shutdown phase began; each cycle of a session that ends without error comes to exactly the cyclic tasks then in the session. With orderly removals (disabled, nothing running, no record on the way): no error, records noted on the task that started the process, process limit, nothing left running. If names are not used again, the memory of a task agrees with the log whenever its start is decided. Refuted: a task removed in mid-cycle still starts; the outcome of a process whose task was removed crashes the scheduler, or is blamed on a task just starting, or is credited to a new task of that name; the process of a removed task is not counted and is left running; a daily task created anew runs twice a day. Left out: hooks, parameters, manual requests, restarts, log write failures, a set changed by another thread while it is gone through."
  },
  {
   "property": "C73",
   "status": "partial",
   "theorems": [
    "c73_equal_partial",
    "c73_all",
    "c73_all_kept",
    "c73_any_kept",
    "c73_any_contains",
    "c73_any_back_partial",
    "c73_any_forward_partial",
    "c73_any_two",
    "c73_order_refuted",
    "c73_contains_refuted",
    "c73_relative_day_refuted"
   ],
   "note": "Proved for all hashes, orders and moments: equal periods without unions or RelativeDays inside have the same windows; an intersection depends only on the set of its arguments (given that equal ones among them have the same windows); membership of a union does not depend on the order when the windows from that moment are not empty; its windows do not when no two end (begin) at the same moment, or when there are two. Refuted: how far back a union of three open daily periods goes, and whether the end of a fixed interval is in a union, depend on the order of the set; all RelativeDays compare equal, so that a union of today and yesterday is only the first of them. No period given is lost from an intersection or union, but for those equal to or absorbed by another (c73_all_kept, c73_any_kept)."
  },
  {
   "property": "C74",
   "status": "partial",
   "theorems": [
    "c74_alone",
    "c74_process",
    "c74_terminated",
    "c74_crash",
    "c74_made",
    "c74_runtime",
    "c74_latest",
    "c74_overlap_refuted",
    "c74_start_refuted",
    "c74_process_refuted",
    "c74_record_runtime_refuted"
   ],
   "note": "Proved for all states and steps: a run that no other run of the task overlaps has on its outcome the start noted between its making and its start record, the end and the time between; a run in a process also when others overlap it; runtimes are never negative or inconsistent if the clock is not set back. Refuted: of overlapping runs in threads or coroutines the outcome shows the start of the latest to begin; start and outcome records of a run can differ in the start; with force_status_from_logs runs in processes have no runtime; in TaskLogRecord and TaskRunRecord the runtime is always a millionth of the right one. Terminations and crashes carry their own times too (c74_terminated, c74_crash)."
  },
  {
   "property": "C75",
   "status": "partial",
   "theorems": [
    "c75_once",
    "c75_every",
    "c75_depend",
    "c75_executed",
    "c75_every_based",
    "c75_retry",
    "c75_success_refuted",
    "c75_recorded_once_refuted"
   ],
   "note": "Proved for all served sessions, by an invariant over every function up to serve: at most one run record per window, every(X) apart, dependency outcomes used once; for conditions that imply the history condition (also in conjunctions). Hypotheses: the clock does not go back, nobody requests a run of the task by hand, the runs already in the log are known to the task (so in a new session), and nothing around the code of a main-thread task fails. Refuted: a daily process task that ends between the taking of its records and the check whether it is alive runs again on the day it succeeded; a hook failing after a main-thread run makes the run be recorded twice. For coroutines and threads run one at a time: c75_executed (not run again in the window after success, inaction or termination, nor after more failures than retries) c75_every_based (every(X) based on any outcome) and c75_retry (a condition joined with retry(n) by |: a run that is not the first in its window follows at most n failures in a row, and at least one when the status is read from the log; records after 1970; that the cached status has a recorded failure behind it is not proved). Not proved: success-based conditions of main-thread tasks at session level (a failing hook after the run is refuted; at history level see C18)."
  },
  {
   "property": "C76",
   "status": "partial",
   "theorems": [
    "c76_due",
    "c76_once",
    "c76_executed",
    "c76_every",
    "c76_depend",
    "c76_unmade_refuted",
    "c76_crowded_refuted"
   ],
   "note": "Proved for all served sessions: if the task is enabled, may be started and its condition holds during a cycle that is completed, it is recorded as run in the cycle (c76_due); from this the once-per-window, succeed-once, every(X) and dependency forms. Hypotheses: the clock does not go back, records can be written, runs can be made (parameters, run ids, threads, processes), nobody disables the task or holds the scheduler. The first instant of a window is left out (the code looks at a span that ends there). Processes are covered: if a slot is free when the scheduler comes to the task, the record its child sends is in the log when the cycle ends. c76_every is for conditions on one action. Refuted: without runs that can be made, a second simultaneous run whose preparation fails leaves no run record. Refuted without a free slot: another process keeps it (c76_crowded_refuted)."
  },
  {
   "property": "C77",
   "status": "partial",
   "theorems": [
    "c77_reaches_partial",
    "c77_defined_partial",
    "c77_self_refuted",
    "c77_type_refuted",
    "c77_applied_refuted",
    "c77_param_refuted"
   ],
   "note": "Proved for all sessions, tasks, executions and sources when no parameter is called self, _param or type_; c77_*_refuted show what these three do: self in the session's parameters fails every run of every task, a type_ that cannot be called does so as soon as the session has another parameter (app.params(type_='csv', ...)), one that can be called is applied to all other parameters and not passed, and _param=None is dropped. What Python does with the objects given under these names is a parameter of the model. The run identifier made from the union is not modelled here."
  },
  {
   "property": "C78",
   "status": "partial",
   "theorems": [
    "c78_equal_partial",
    "c78_self",
    "c78_both_ways_partial",
    "c78_one_way_refuted",
    "c78_float_refuted",
    "c78_unequal_partial",
    "c78_unequal_refuted"
   ],
   "note": "Proved for all condition trees: equal conditions answer the same (bounds integers; equal attribute values must make conditions of a class answer alike, which for periods is C73), a condition equals itself, equality goes both ways when no constant is negated, and != negates == and changes nothing for conditions that do not count. Refuted: ~false == true but not true == ~false; 2 and 2.0 as bounds compare equal but do not answer alike; a != b with a condition that counts (TaskStarted and the like) sets a bound on a, which then holds always. The API wrappers are not modelled here."
  },
  {
   "property": "C79",
   "status": "partial",
   "theorems": [
    "c79_parts",
    "c79_fixed",
    "c79_float_refuted",
    "c79_read_partial",
    "c79_read_refuted",
    "c79_zero_refuted",
    "c79_negative_refuted"
   ],
   "note": "Refuted in part. The parts add up and are within bounds when the float product holds the duration (c79_parts, c79_fixed; 249 microseconds are a counterexample, c79_float_refuted). Missing from c79_read_partial, because false: durations with parts of a second (KeyError, the writer says milliseconds and microseconds), zero, and durations below zero, which are read as others."
  },
  {
   "property": "C80",
   "status": "partial",
   "theorems": [
    "c80_start",
    "c80_begin",
    "c80_kept",
    "c80_request",
    "c80_arguments",
    "c80_new",
    "c80_fails",
    "c80_own",
    "c80_own_dict",
    "c80_shared_refuted"
   ],
   "note": "Refuted for tasks that are not function tasks given their function (command, code and delayed tasks) when two of them are given the same Parameters object: it is kept, not copied, so they share it (c80_shared_refuted). The rest is proved in full; c80_arguments ties the runs to the model of C37."
  },
  {
   "property": "C81",
   "status": "partial",
   "theorems": [
    "c81_same_partial",
    "c81_traceback",
    "c81_handlers",
    "c81_args_refuted",
    "c81_own_refuted"
   ],
   "note": "Missing from c81_same_partial, because false: records logged with arguments (c81_args_refuted: they arrive with the arguments not put in; the library itself logs none) and records without an action, which the code of a task can log with its own logger and which raise in the scheduler (c81_own_refuted)."
  },
  {
   "property": "C82",
   "status": "partial",
   "theorems": [
    "c82_options_given",
    "c82_options_default",
    "c82_success_partial",
    "c82_any_options_partial",
    "c82_elsewhere",
    "c82_exit_code",
    "c82_not_started",
    "c82_over",
    "c82_waits",
    "c82_limit",
    "c82_timeout_refuted"
   ],
   "note": "Options and outcome are proved for every command when the task has no timeout of its own. c82_limit shows what the code would do were the timeout a number. Refuted: a task's own timeout is a timedelta, communicate adds it to a float and raises TypeError, so such a task always fails and leaves its command running. Termination by the scheduler is not part of this model."
  },
  {
   "property": "C83",
   "status": "partial",
   "theorems": [
    "c83_script_partial",
    "c83_unset",
    "c83_helper_refuted",
    "c83_calls_refuted"
   ],
   "note": "Proved for code whose functions use no names but that of their argument, in a small language. Refuted: exec gets different dictionaries for globals and locals, so functions of the code see neither the parameters nor each other."
  },
  {
   "property": "C84",
   "status": "partial",
   "theorems": [
    "c84_values",
    "c84_sets_partial",
    "c84_symmetric",
    "c84_itself",
    "c84_default_refuted",
    "c84_pipe_refuted",
    "c84_function_refuted",
    "c84_error_refuted"
   ],
   "note": "Proved in full for sets of plain values, and for sets with arguments that are not pipes or functions with arguments if session arguments have the same defaults. Refuted: Arg compares only the key, pipes and functions of secrets compare what they make of the hidden text, and Return, TerminationFlag, named Task and Session arguments raise when compared."
  }
 ]
}