(** Model of the scheduler: rocketry/core/schedule.py, and of Session.run.
    [fuel] bounds each loop that is not over a list; a computation that needs
    more ends in [OutOfFuel]. *)
From Verif Require Import Model.Base Model.History Model.World Model.Run.
Open Scope Z_scope.

Section Scheduler.
Context (orc : oracle) (cf : config).

(** core/schedule.py:93-100 tasks: sorted by descending priority.  sorted is
    stable, also with reverse=True; the order of the session's set is the order
    of [w_tasks]. *)
Fixpoint insert_task (t : task) (l : list task) : list task :=
  match l with
  | [] => [t]
  | u :: l =>
      if tc_priority (t_cfg u) <? tc_priority (t_cfg t) then t :: u :: l else u :: insert_task t l
  end.
Definition by_priority (ts : list task) : list task := fold_left (fun acc t => insert_task t acc) ts [].
Definition tasks : M (list Z) := get (fun w => map t_name (by_priority (w_tasks w))).

Fixpoint for_each (f : Z -> M unit) (names : list Z) : M unit :=
  match names with
  | [] => ret tt
  | n :: names => f n ;; for_each f names
  end.

(** core/schedule.py:199-206 check_task_cond *)
Definition check_task_cond (name : Z) : M bool :=
  r <- attempt (is_runnable orc name) ;;
  match r with
  | Ok b => ret b
  | Err e => if negb (cf_silence_cond cf) || negb (is_exception e) then raise e else ret false
  end.

(** core/schedule.py:336-337 count_process_tasks_alive, 331-334
    has_free_processors *)
Definition total_processes (ts : list task) : Z :=
  fold_right (fun t n => Z.of_nat (count_processes_taken t) + n) 0 ts.
Definition has_free_processors : M bool :=
  ts <- get w_tasks ;; ret (total_processes ts <? cf_max_process cf).

Definition allow_multilaunch (t : task) : bool :=
  match tc_multi (t_cfg t) with Some b => b | None => cf_multi cf end.

(** core/schedule.py:237-253 is_task_runnable *)
Definition is_task_runnable (name : Z) : M bool :=
  t <- get_task name ;;
  let x := get_execution cf t in
  free <- (if exec_eqb x XProcess then has_free_processors else ret true) ;;
  if negb free then ret false
  else
    env orc ;;
    t <- get_task name ;;
    if negb (exec_eqb x XMain) && negb (allow_multilaunch t) && is_alive t then ret false
    else env orc ;; check_task_cond name.

(** core/schedule.py:208-224 run_task *)
Definition run_task (fuel : nat) (name : Z) : M unit :=
  r <- attempt (start_async orc cf fuel name) ;;
  match r with
  | Ok _ => ret tt
  | Err TaskLoggingError => if cf_silence_logging cf then ret tt else raise TaskLoggingError
  | Err TaskSetupError => if cf_silence_prerun cf then ret tt else raise TaskSetupError
  | Err e => raise e
  end.

(** core/schedule.py:255-287 handle_logs, 510-517 _log_task *)
Fixpoint handle_logs (fuel : nat) : M unit :=
  match fuel with
  | O => fun w => (w, OutOfFuel)
  | S fuel =>
      env orc ;;
      w <- get (fun w => w) ;;
      match w_queue w with
      | [] => ret tt
      | q :: rest =>
          modify (set_queue rest) ;;
          get_task (r_task (q_rec q)) ;;
          (match q_return q with
           | Some v => if action_eqb (r_action (q_rec q)) ASuccess
                       then handle_return (r_task (q_rec q)) v else ret tt
           | None => ret tt
           end) ;;
          r <- attempt (log_record_m orc q) ;;
          (match r with
           | Err e => if negb (cf_silence_logging cf) || negb (is_exception e) then raise e else ret tt
           | Ok _ => ret tt
           end) ;;
          handle_logs fuel
      end
  end.

(** core/schedule.py:519-523 check_thread_errors *)
Definition check_thread_errors : M unit :=
  if cf_silence_logging cf then ret tt
  else names <- tasks ;; for_each check_exceptions names.

(** Hooks around startup, cycle and shutdown: core/hook.py *)
Definition hook : M unit := e <- ask (o_hook orc) ;; raise_if e.

(** core/schedule.py:172-186: one task's turn in a cycle *)
Definition cycle_task (fuel : nat) (name : Z) : M unit :=
  env orc ;;
  handle_logs fuel ;;
  clean_run_stack cf name ;;
  env orc ;;
  t <- get_task name ;;
  (if tc_startup (t_cfg t) || tc_shutdown (t_cfg t) then ret tt
   else
     enabled <- get w_enabled ;;
     modify (emit (EvConsider name (negb enabled))) ;;
     if enabled then
       b <- is_task_runnable name ;;
       env orc ;;
       if b then run_task fuel name else ret tt
     else ret tt) ;;
  env orc ;;
  check_termination orc cf name.

(** core/schedule.py:156-191 run_cycle *)
Definition run_cycle (fuel : nat) : M unit :=
  names <- tasks ;;
  modify (emit EvCycle) ;;
  hook ;;
  for_each (cycle_task fuel) names ;;
  handle_logs fuel ;;
  check_thread_errors ;;
  hook ;;
  modify (fun w => set_cycles (S (w_cycles w)) w).

(** core/task.py:916-942 set_cached *)
Definition set_cached_m (name : Z) : M unit :=
  ok <- ask (o_write orc) ;;
  t <- get_task name ;;
  w <- get (fun w => w) ;;
  let '(st, l, r) := set_cached (t_state t) (w_log w) name (w_clock w) (w_clock w) ok in
  modify (set_log l) ;;
  modify (on_task name (with_state st)) ;;
  match r with Ok tt => ret tt | Err e => raise e end.

(** core/schedule.py:322-326, 348-354: a startup or shutdown task whose
    start_cond is not set is requested, then started if it may *)
Definition run_special (fuel : nat) (name : Z) : M unit :=
  t <- get_task name ;;
  (if tc_always_false (t_cfg t) && negb (t_disabled t)
   then (modify (emit (EvRequest name [])) ;;
         modify (on_task name (fun t => with_batches (t_batches t ++ [[]]) t)))
   else ret tt) ;;
  b <- is_task_runnable name ;;
  env orc ;;
  if b then run_task fuel name else ret tt.

(** core/schedule.py:311-326: one task's turn at startup *)
Definition startup_task (fuel : nat) (name : Z) : M unit :=
  env orc ;;
  r <- attempt (set_cached_m name) ;;
  (match r with
   | Ok _ => ret tt
   | Err TaskLoggingError => if cf_silence_logging cf then ret tt else raise TaskLoggingError
   | Err e => raise e
   end) ;;
  t <- get_task name ;;
  if tc_startup (t_cfg t) then run_special fuel name else ret tt.

(** core/schedule.py:298-329 startup *)
Definition startup (fuel : nat) : M unit :=
  modify (emit EvStartup) ;;
  hook ;;
  modify (set_cycles 0) ;;
  names <- tasks ;;
  for_each (startup_task fuel) names ;;
  hook ;;
  modify (emit EvStarted).

(** core/schedule.py:226-235 terminate_all, terminate_task *)
Definition terminate_if_alive (name : Z) : M unit :=
  t <- get_task name ;;
  if is_alive t then terminate_all_runs orc cf name else ret tt.
Definition terminate_everything : M unit :=
  names <- tasks ;; for_each terminate_if_alive names.

Definition total_alive (ts : list task) : Z := fold_right (fun t n => Z.of_nat (n_alive t) + n) 0 ts.

(** core/schedule.py:344-354 run_shutdown_tasks *)
Definition shutdown_task (fuel : nat) (name : Z) : M unit :=
  t <- get_task name ;;
  if tc_shutdown (t_cfg t) then run_special fuel name else ret tt.
Definition run_shutdown_tasks (fuel : nat) : M unit :=
  names <- tasks ;; for_each (shutdown_task fuel) names.

(** core/schedule.py:365-376: waiting for the runs to finish.  _hibernate lets
    the others run. *)
Definition wait_turn (name : Z) : M unit :=
  t <- get_task name ;;
  if tc_permanent (t_cfg t) then terminate_all_runs orc cf name else check_termination orc cf name.
Fixpoint wait_for_finish (fuel : nat) : M unit :=
  match fuel with
  | O => fun w => (w, OutOfFuel)
  | S fuel =>
      ts <- get w_tasks ;;
      if total_alive ts =? 0 then ret tt
      else
        env orc ;;
        handle_logs fuel ;;
        names <- tasks ;;
        for_each wait_turn names ;;
        wait_for_finish fuel
  end.

Definition gentle (exception : option exn) : bool :=
  match exception with None | Some SchedulerRestart => true | _ => false end.

(** core/schedule.py:356-382 _shut_down_tasks *)
Fixpoint shut_down_tasks (fuel : nat) (exception : option exn) : M unit :=
  match fuel with
  | O => fun w => (w, OutOfFuel)
  | S fuel =>
      force <- get w_force ;;
      if negb (cf_instant cf) && gentle exception && negb force then
        r <- attempt (wait_for_finish fuel) ;;
        match r with
        | Ok _ => ret tt
        | Err e => if is_exception e then (shut_down_tasks fuel (Some e) ;; raise e) else raise e
        end
      else terminate_everything
  end.

(** core/schedule.py:384-387 wait_task_alive *)
Fixpoint wait_task_alive (fuel : nat) : M unit :=
  match fuel with
  | O => fun w => (w, OutOfFuel)
  | S fuel =>
      ts <- get w_tasks ;;
      if 0 <? total_alive ts then (env orc ;; wait_task_alive fuel) else ret tt
  end.

(** core/schedule.py:389-434 shut_down, up to the restart (435-439), which
    replaces the process *)
Definition shut_down (fuel : nat) (exception : option exn) : M unit :=
  modify (emit EvShutdown) ;;
  hook ;;
  finally
    (finally
       (finally (run_shutdown_tasks fuel) (shut_down_tasks fuel exception))
       (wait_task_alive fuel ;; handle_logs fuel ;; check_thread_errors))
    hook.

(** core/schedule.py:193-197 check_shut_cond *)
Definition check_shut_cond : M bool :=
  c <- get w_shut ;;
  match c with
  | ShutCycles n => k <- get w_cycles ;; ret (Nat.leb n k)
  | ShutUser => r <- ask (o_shut orc) ;; match r with Ok b => ret b | Err e => raise e end
  end.

(** core/schedule.py:122-131: the main loop *)
Fixpoint main_loop (fuel : nat) : M unit :=
  match fuel with
  | O => fun w => (w, OutOfFuel)
  | S fuel =>
      stop <- check_shut_cond ;;
      if stop then ret tt
      else
        env orc ;;                                           (* _hibernate *)
        down <- get w_shutdown ;;
        if down then ret tt
        else
          restart <- get w_restart ;;
          if restart then raise SchedulerRestart
          else run_cycle fuel ;; main_loop fuel
  end.

(** core/schedule.py:108-154 serve *)
Definition serve (fuel : nat) : M unit :=
  modify (fun w => set_flags true false false (w_force w) w) ;;
  r <- attempt (startup fuel ;; main_loop fuel) ;;
  let exception := match r with Ok _ | Err CancelledError => None | Err e => Some e end in
  shut_down fuel exception ;;
  match r with
  | Ok _ | Err SchedulerExit | Err SchedulerRestart => ret tt
  | Err e => raise e
  end.

(** session.py:261-313 run.  The saved attributes are put back afterwards;
    the batches are a list object shared with the saved one, so they keep
    their current value, and so does the status (line 293).  (The private
    attributes are not in __dict__ and are left alone too.) *)
Definition with_exec (x : option exec) (t : task) : task :=
  let c := t_cfg t in
  Task (TCfg (tc_name c) x (tc_multi c) (tc_priority c) (tc_startup c) (tc_shutdown c) (tc_permanent c)
          (tc_timeout c) (tc_always_false c))
    (t_state t) (t_batches t) (t_disabled t) (t_term t) (t_stack t).
Definition prepare (names : list Z) (x : option exec) (obey_cond : bool) (t : task) : task :=
  if existsb (Z.eqb (t_name t)) names then
    let t := if obey_cond then t else with_batches (t_batches t ++ [[]]) t in
    match x with Some _ => with_exec x t | None => t end
  else with_disabled true t.
Definition put_back (old : list task) (t : task) : task :=
  match find (fun o => t_name o =? t_name t) old with
  | Some o => with_term (t_term o) (with_disabled (t_disabled o) (with_exec (tc_exec (t_cfg o)) t))
  | None => t
  end.
Definition session_run (fuel : nat) (names : list Z) (x : option exec) (obey_cond : bool) : M unit :=
  old <- get w_tasks ;;
  modify (fun w => set_tasks (map (prepare names x obey_cond) (w_tasks w)) w) ;;
  shut <- get w_shut ;;
  finally
    (modify (set_shut (ShutCycles 1)) ;; serve fuel)
    (modify (set_shut shut) ;;
     modify (fun w => set_tasks (map (put_back old) (w_tasks w)) w)).
End Scheduler.
