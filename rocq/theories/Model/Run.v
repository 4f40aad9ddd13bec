(** Model of how a run is started, executed, logged and terminated:
    rocketry/core/task.py.  (Locks, logging messages, pickling and the
    deprecated force_run flag, which nothing reads, are not modelled.) *)
From Verif Require Import Model.Base Model.History Model.World.
Open Scope Z_scope.

Section Run.
Context (orc : oracle) (cf : config).

(** core/task.py:1239-1242 get_execution *)
Definition get_execution (t : task) : exec :=
  match tc_exec (t_cfg t) with Some x => x | None => cf_exec cf end.

(** * Logging *)

(** core/task.py:1148-1195 _set_status in the main process, both clock readings
    being the same *)
Definition set_status_m (name : Z) (a : action) (rid : option Z) : M unit :=
  ok <- ask (o_write orc) ;;
  t <- get_task name ;;
  w <- get (fun w => w) ;;
  let '(st, l, r) := set_status (t_state t) (w_log w) name a (w_clock w) (w_clock w) rid ok in
  modify (set_log l) ;;
  modify (on_task name (with_state st)) ;;
  match r with Ok tt => ret tt | Err e => raise e end.

(** _set_status in a child process: the record goes to the queue, with the
    return value (lines 1166-1171, 1177-1180) *)
Definition set_status_child (name : Z) (a : action) (rid : option Z) (v : Z) : M unit :=
  w <- get (fun w => w) ;;
  modify (set_queue (w_queue w ++ [QRec (Rec name a (w_clock w) rid)
                                     (if action_eqb a ASuccess then Some v else None)])).

(** core/task.py:1074-1102 log_running ... log_inaction; [child] is whether
    the code runs in a child process.  log_termination also resets
    force_termination (line 1093; in a child that is the child's copy). *)
Definition log_action (child : bool) (name : Z) (a : action) (rid : option Z) (v : Z) : M unit :=
  (if child then set_status_child name a rid v else set_status_m name a rid) ;;
  (if action_eqb a ATerminate && negb child then modify (on_task name (with_term false)) else ret tt).

(** core/task.py:1104-1128 log_record: a child's record arrives *)
Definition log_record_m (q : qrec) : M unit :=
  let rec := q_rec q in
  ok <- ask (o_write orc) ;;
  t <- get_task (r_task rec) ;;
  w <- get (fun w => w) ;;
  let '(st, l, r) := log_record (t_state t) (w_log w) (r_task rec) (r_action rec) (r_created rec) (r_run_id rec) ok in
  modify (set_log l) ;;
  modify (on_task (r_task rec) (with_state st)) ;;
  match r with Ok tt => ret tt | Err e => raise e end.

(** core/task.py:1334-1336 _handle_return *)
Definition handle_return (name v : Z) : M unit :=
  r <- get w_returns ;; modify (set_returns ((name, v) :: r)).

(** * The code of a run *)

(** core/task.py:581-595: what comes before the try block *)
Definition run_setup (s : script) : M unit := raise_if (s_setup s).

(** core/task.py:597-656: the try block.  [child] is execution == "process". *)
Definition run_body (child : bool) (x : option exec) (name : Z) (rid : option Z) (s : script) : M unit :=
  finally
    (match s_exec s with
     | None =>                                              (* 643-652 *)
         (if child then ret tt else (raise_if (s_return s) ;; handle_return name (s_value s))) ;;
         log_action child name ASuccess rid (s_value s)
     | Some e =>
         match e with
         | SchedulerRestart | SchedulerExit =>               (* 607-614: the run is passed as return value *)
             log_action child name ASuccess None 0 ;; raise_if (s_success s) ;; raise e
         | TaskInaction => log_action child name AInaction rid 0        (* 616-622 *)
         | TaskTermination | CancelledError => log_action child name ATerminate rid 0  (* 624-629 *)
         | _ =>                                              (* 631-641 *)
             match s_failure s with
             | Some CancelledError => raise CancelledError
             | _ => log_action child name AFail rid 0 ;;
                    match x with None => raise e | Some _ => ret tt end
             end
         end
     end)
    (raise_if (s_finish s) ;; raise_if (s_post s)).          (* 654-656 *)

(** core/task.py:577-656 _run_as_async *)
Definition run_as_async (child : bool) (x : option exec) (name : Z) (rid : option Z) (s : script) : M unit :=
  run_setup s ;; run_body child x name rid s.

(** core/task.py:677-705 _run_as_thread, after the run was logged *)
Definition thread_code (name : Z) (uid : nat) (rid : option Z) (s : script) : M unit :=
  r <- attempt (run_as_async false (Some XThread) name rid s) ;;
  match r with
  | Ok tt => ret tt
  | Err e =>
      if is_exception e then
        r <- attempt (log_action false name AFail None 0) ;;
        match r with
        | Err TaskLoggingError => modify (on_run uid (with_exc true))
        | _ => ret tt
        end
      else ret tt
  end.

(** core/task.py:741-783 _run_as_process, after the run was logged *)
Definition process_code (name : Z) (rid : option Z) (s : script) : M unit :=
  r <- attempt (run_as_async true (Some XProcess) name rid s) ;;
  match r with
  | Ok tt => ret tt
  | Err e => if is_exception e then log_action true name AFail None 0 else ret tt
  end.

(** * Moves of the outside *)

(** A coroutine has ended: its asyncio.Task keeps the exception *)
Definition end_coroutine (uid : nat) (m : M unit) : M unit :=
  r <- attempt m ;;
  modify (on_run uid (with_phase (Over (match r with Ok _ => None | Err e => Some e end)))).

Definition is_pending (r : run) : bool := match rn_phase r with Pending => true | _ => false end.
Definition is_busy (r : run) : bool := match rn_phase r with Busy => true | _ => false end.

Definition begin_run (r : run) : run := if is_pending r then with_phase Busy r else r.
(** A coroutine whose setup succeeded becomes busy; otherwise it ends. *)
Definition enter (uid : nat) (s : script) : M unit :=
  r <- attempt (run_setup s) ;;
  match r with
  | Ok _ => modify (on_run uid begin_run)
  | Err e => modify (on_run uid (with_phase (Over (Some e))))
  end.

Definition do_move (m : move) : M unit :=
  match m with
  | MClock t => modify (set_clock t)
  | MRequest name p =>                                       (* 390-411 *)
      modify (emit (EvRequest name p)) ;;
      modify (on_task name (fun t => with_batches (t_batches t ++ [p]) t))
  | MTerminate name => modify (on_task name (with_term true))  (* 418-420 *)
  | MDisable name b => modify (on_task name (with_disabled b))
  | MHold b =>                                               (* core/schedule.py:480-484 *)
      modify (fun w => set_flags (negb b) (w_shutdown w) (w_restart w) (w_force w) w)
  | MShutdown force =>                                       (* session.py:335-340 *)
      modify (fun w =>
        let force := match force with Some b => b | None => w_shutdown w end in
        set_flags (w_enabled w) true (w_restart w) (w_force w || force) w)
  | MRestart =>                                              (* session.py:321 *)
      modify (fun w => set_flags (w_enabled w) (w_shutdown w) true (w_force w) w)
  | MEnter uid s =>
      w <- get (fun w => w) ;;
      match find_run uid w with
      | Some (t, r) => if exec_eqb (rn_kind r) XAsync && is_pending r then enter uid s else ret tt
      | None => ret tt
      end
  | MLeave uid s =>
      w <- get (fun w => w) ;;
      match find_run uid w with
      | Some (t, r) =>
          if exec_eqb (rn_kind r) XAsync && is_busy r
          then end_coroutine uid (run_body false (Some XAsync) (t_name t) (rn_id r) s) else ret tt
      | None => ret tt
      end
  | MOrphan s =>
      w <- get (fun w => w) ;;
      match w_orphans w with
      | (name, r) :: rest =>
          modify (set_orphans rest) ;;
          attempt (run_as_async false (Some XMain) name (rn_id r) s) ;; ret tt
      | [] => ret tt
      end
  | MThread uid s =>
      w <- get (fun w => w) ;;
      match find_run uid w with
      | Some (t, r) =>
          if exec_eqb (rn_kind r) XThread && is_busy r
          then end_coroutine uid (thread_code (t_name t) uid (rn_id r) s) else ret tt
      | None => ret tt
      end
  | MProcess uid s =>
      w <- get (fun w => w) ;;
      match find_run uid w with
      | Some (t, r) =>
          if exec_eqb (rn_kind r) XProcess && is_busy r
          then end_coroutine uid (process_code (t_name t) (rn_id r) s) else ret tt
      | None => ret tt
      end
  | MKilled uid =>
      w <- get (fun w => w) ;;
      match find_run uid w with
      | Some (t, r) =>
          if exec_eqb (rn_kind r) XProcess && is_busy r
          then modify (on_run uid (with_phase (Over None))) else ret tt
      | None => ret tt
      end
  end.
(** Moves never raise into the scheduler's code: exceptions of coroutines and
    threads stay with them. *)
Fixpoint do_moves (ms : list move) : M unit :=
  match ms with
  | [] => ret tt
  | m :: ms => attempt (do_move m) ;; do_moves ms
  end.
Definition env : M unit := ms <- ask (o_env orc) ;; do_moves ms.

(** * Starting *)

(** core/task.py:949-952 get_run_id *)
Definition get_run_id : M Z :=
  r <- ask (o_run_id orc) ;; match r with Ok i => ret i | Err e => raise e end.

(** core/task.py:803-807 _get_direct_params: a manual request is taken *)
Definition get_direct_params (name : Z) : M unit :=
  t <- get_task name ;;
  match t_batches t with
  | p :: rest =>
      modify (on_task name (with_batches rest)) ;; modify (emit (EvTake name (Some p)))
  | [] => modify (emit (EvTake name None))
  end.

(** core/task.py:1039-1072 _lock_to_run_log: records are taken from the queue
    until a run record came.  (Return values of the records are not handled
    here.) *)
Fixpoint lock_to_run_log (n : nat) (name : Z) (uid : nat) (err : option exn) : M unit :=
  match n with
  | O => fun w => (w, OutOfFuel)
  | S n =>
      env ;;
      w <- get (fun w => w) ;;
      match w_queue w with
      | [] =>                                                 (* 1054-1059 *)
          t <- get_task name ;;
          if is_alive t then lock_to_run_log n name uid err
          else
            (modify (fun w => set_log (w_log w ++ [Rec name AFail (w_clock w) None]) w) ;;
             raise TaskSetupError)
      | q :: rest =>
          modify (set_queue rest) ;;
          get_task (r_task (q_rec q)) ;;
          r <- attempt (log_record_m q) ;;
          let err := match r with Err e => Some e | Ok _ => err end in
          if action_eqb (r_action (q_rec q)) ARun then raise_if err
          else lock_to_run_log n name uid err
      end
  end.

Definition push_run (name : Z) (r : run) : M unit :=
  modify (on_task name (fun t => with_stack (t_stack t ++ [r]) t)).

(** The branches of core/task.py:488-525, by execution.  A run that is not
    started yet has the phase it will be pushed with. *)
Definition launch (fuel : nat) (x : exec) (name : Z) (uid : nat) (start : Z) (rid : Z) : M unit :=
  match x with
  | XMain =>                                                  (* 488-511 *)
      let r := Run uid (Some rid) start XMain Busy false false in
      modify (fun w => set_orphans (w_orphans w ++ [(name, r)]) w) ;;
      push_run name r ;;
      log_action false name ARun (Some rid) 0 ;;
      modify (fun w => set_orphans (removelast (w_orphans w)) w) ;;
      env ;;
      s <- ask (o_script orc) ;;
      run_setup s ;; env ;;
      run_body false (Some XMain) name (Some rid) s
  | XAsync =>                                                 (* 488-511 *)
      push_run name (Run uid (Some rid) start XAsync Pending false false) ;;
      log_action false name ARun (Some rid) 0
  | XProcess =>                                               (* 707-739 *)
      e <- ask (o_prep orc) ;; raise_if e ;;
      e <- ask (o_spawn orc) ;;
      match e with
      | Some e =>
          push_run name (Run uid (Some rid) start XProcess (Over None) false false) ;; raise e
      | None =>
          boots <- ask (o_boot orc) ;;
          push_run name (Run uid (Some rid) start XProcess (if boots then Busy else Over None) false false) ;;
          (if boots then log_action true name ARun (Some rid) 0 else ret tt) ;;
          lock_to_run_log fuel name uid None
      end
  | XThread =>                                                (* 658-675, 677-690 *)
      e <- ask (o_prep orc) ;; raise_if e ;;
      e <- ask (o_spawn orc) ;;
      match e with
      | Some e =>
          push_run name (Run uid (Some rid) start XThread (Over None) false false) ;; raise e
      | None =>
          push_run name (Run uid (Some rid) start XThread Busy false false) ;;
          modify (fun w => on_task name (fun t =>
            with_state (TState (set_last (ts_last (t_state t)) ARun (Some (w_clock w))) (ts_status (t_state t))) t) w) ;;
          r <- attempt (log_action false name ARun (Some rid) 0) ;;
          match r with
          | Ok _ => ret tt
          | Err e =>
              modify (on_run uid (with_exc true)) ;;
              attempt (log_action false name AFail None 0) ;;
              modify (on_run uid (with_phase (Over None)))
          end
      end
  end.

Definition status_is_run (name : Z) : M bool :=
  t <- get_task name ;;
  ret (match ts_status (t_state t) with Some ARun => true | _ => false end).
Definition is_child_exec (x : exec) : bool := match x with XThread | XProcess => true | _ => false end.

(** core/task.py:515-537: the exception handlers of start_async *)
Definition start_failed (x : exec) (name : Z) (rid : option Z) (e : exn) : M unit :=
  match e with
  | SchedulerRestart | SchedulerExit | CancelledError => raise e
  | TaskLoggingError =>
      b <- status_is_run name ;;
      (if b && negb (is_child_exec x) then log_action false name AFail rid 0 else ret tt) ;;
      raise e
  | _ =>
      rid <- match rid with Some i => ret i | None => get_run_id end ;;
      b <- status_is_run name ;;
      (if b then ret tt else log_action false name ARun (Some rid) 0) ;;
      log_action false name AFail (Some rid) 0 ;;
      raise TaskSetupError
  end.

(** core/task.py:454-542 start_async.  [fuel] bounds the wait for a child
    process. *)
Definition start_async (fuel : nat) (name : Z) : M unit :=
  t <- get_task name ;;
  let x := get_execution t in
  start <- get w_clock ;;
  uid <- get w_uid ;;
  modify (set_uid (S uid)) ;;
  modify (emit (EvStart name uid)) ;;
  finally
    (r <- attempt (e <- ask (o_prep orc) ;; raise_if e ;;       (* 482 *)
                   get_direct_params name ;;                   (* 483 *)
                   get_run_id) ;;                              (* 485 *)
     match r with
     | Err e => start_failed x name None e
     | Ok rid =>
         r <- attempt (launch fuel x name uid start rid) ;;
         match r with
         | Ok _ => ret tt
         | Err e => start_failed x name (Some rid) e
         end
     end)
    (* 538-542: runs whose task is None are dropped *)
    (modify (on_task name (fun t => with_stack (filter (fun r => negb (exec_eqb (rn_kind r) XMain)) (t_stack t)) t))).

(** * Inspection and termination *)

(** core/task.py:547-568 is_runnable *)
Definition is_runnable (name : Z) : M bool :=
  t <- get_task name ;;
  match t_batches t with
  | _ :: _ => ret true
  | [] =>
      if t_disabled t then ret false
      else if tc_always_false (t_cfg t) then ret false
      else w <- get (fun w => w) ;; r <- ask (fun k => o_cond orc k name w) ;; match r with Ok b => ret b | Err e => raise e end
  end.

(** core/task.py:66-80 TaskRun.terminate *)
Definition terminate_run_obj (uid : nat) : M unit :=
  w <- get (fun w => w) ;;
  match find_run uid w with
  | None => ret tt
  | Some (t, r) =>
      match rn_kind r with
      | XAsync =>
          match rn_phase r with
          | Over None => ret tt
          | Over (Some e) => raise e                         (* awaiting an ended task *)
          | Pending => modify (on_run uid (with_phase (Over (Some CancelledError)))) ;; raise CancelledError
          | Busy =>
              (* the coroutine gets a CancelledError at its await and goes on
                 as its code decides; meanwhile others run *)
              env ;;
              s <- ask (o_script orc) ;;
              w <- get (fun w => w) ;;
              match find_run uid w with
              | Some (t, r) =>
                  match rn_phase r with
                  | Over None => ret tt
                  | Over (Some e) => raise e
                  | _ =>
                      end_coroutine uid (run_body false (Some XAsync) (t_name t) (rn_id r) s) ;;
                      w <- get (fun w => w) ;;
                      match find_run uid w with
                      | Some (_, r) => match rn_phase r with Over (Some e) => raise e | _ => ret tt end
                      | None => ret tt
                      end
                  end
              | None => ret tt
              end
          end
      | XProcess =>
          if run_alive r then modify (on_run uid (with_phase (Over None))) else ret tt
      | XThread => modify (on_run uid (with_stop true))
      | XMain => raise TypeError
      end
  end.

(** core/task.py:1026-1036 _terminate_run *)
Definition terminate_run (name : Z) (r : run) : M unit :=
  modify (emit (EvTerminate name (rn_uid r))) ;;
  o <- attempt (terminate_run_obj (rn_uid r)) ;;
  match o with
  | Err CancelledError => log_action false name ATerminate (rn_id r) 0
  | Err e => raise e
  | Ok _ => if exec_eqb (rn_kind r) XProcess then log_action false name ATerminate (rn_id r) 0 else ret tt
  end.

(** core/task.py:997-1010 _clean_run_stack *)
Definition keep_run (r : run) : bool := run_alive r || (negb (cf_silence_logging cf) && rn_exc r).
Definition clean_run_stack (name : Z) : M unit :=
  modify (on_task name (fun t => with_stack (filter keep_run (t_stack t)) t)).

Fixpoint terminate_each (name : Z) (rs : list run) : M unit :=
  match rs with
  | [] => ret tt
  | r :: rs => terminate_run name r ;; env ;; terminate_each name rs
  end.
(** core/task.py:1018-1023 _terminate_all *)
Definition terminate_all_runs (name : Z) : M unit :=
  t <- get_task name ;;
  terminate_each name (t_stack t) ;;
  clean_run_stack name ;;
  modify (on_task name (with_term false)).

(** core/task.py:991-995: the loop over the runs; aliveness is read when the
    loop comes to the run *)
Fixpoint terminate_late (name : Z) (now timeout : Z) (rs : list run) : M unit :=
  match rs with
  | [] => ret tt
  | r :: rs =>
      w <- get (fun w => w) ;;
      let alive := match find_run (rn_uid r) w with Some (_, r') => run_alive r' | None => false end in
      (if alive && (timeout <? now - rn_start r) then (terminate_run name r ;; env) else ret tt) ;;
      terminate_late name now timeout rs
  end.

(** core/task.py:988 a timeout of zero is falsy *)
Definition get_timeout (t : task) : Z :=
  match tc_timeout (t_cfg t) with
  | Some d => if d =? 0 then cf_timeout cf else d
  | None => cf_timeout cf
  end.

(** core/task.py:972-995 _check_termination *)
Definition check_termination (name : Z) : M unit :=
  r <- ask (o_end orc) ;;
  is_end <- match r with
            | Ok b => ret b
            | Err e => if negb (cf_silence_cond cf) || negb (is_exception e) then raise e else ret true
            end ;;
  t <- get_task name ;;
  if t_term t then terminate_all_runs name
  else if is_end then terminate_all_runs name
  else
    now <- get w_clock ;;
    if tc_permanent (t_cfg t) then ret tt
    else terminate_late name now (get_timeout t) (t_stack t).

(** core/task.py:1012-1016 _check_exceptions: the first run holding an
    exception is dropped and its exception raised *)
Fixpoint drop_first_exc (l : list run) : option (list run) :=
  match l with
  | [] => None
  | r :: l => if rn_exc r then Some l else option_map (cons r) (drop_first_exc l)
  end.
Definition drop_exc (t : task) : task :=
  match drop_first_exc (t_stack t) with Some l => with_stack l t | None => t end.
Definition check_exceptions (name : Z) : M unit :=
  t <- get_task name ;;
  match drop_first_exc (t_stack t) with
  | Some l => modify (on_task name drop_exc) ;; raise TaskLoggingError
  | None => ret tt
  end.
End Run.
