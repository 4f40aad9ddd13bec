(** C66: the task log. *)
From Coq Require Import List Bool ZArith String.
From Verif Require Import Model.Base Model.Interval Model.Period Model.Condition Model.History Model.Logging
  Spec.LoggingSpec Proofs.LoggingProofs Proofs.LoggingResults Proofs.LoggingExamples.
Import ListNotations.
Local Open Scope Z_scope.
Local Open Scope list_scope.

(** After an application has been created with a repository: what is read for a task is what the
    repository already held of it and then every record the task has logged since, each once and in
    order.  Missing: what [harmless] excludes; that it must be excluded is shown below. *)
Theorem c66_kept_partial : forall base r task reg st evs, unused r reg -> Forall (harmless base r task) evs ->
  let w := steps_of (HApp base r :: evs) (reg, st) in
  read_task (fst w) (snd w) base task = Ok (filter (fun x => r_task x =? task) (st r) ++ said task evs).
Proof. exact app_keeps. Qed.
Print Assumptions c66_kept_partial.

(** The log of the session is what its repository holds: everything logged, once and in order, if
    only the logger of the application has a name that starts with its base name. *)
Theorem c66_session_log_partial : forall base r reg st evs, unused r reg -> sole base reg -> is_private base = false ->
  Forall (harmless_all base r) evs ->
  let w := steps_of (HApp base r :: evs) (reg, st) in get_task_log base (fst w) (snd w) = Ok (st r ++ said_all evs).
Proof. exact app_log. Qed.
Print Assumptions c66_session_log_partial.

Example c66_kept_met : unused 1 ex_bare /\ sole "rocketry.task" ex_bare /\ is_private "rocketry.task" = false /\
  Forall (harmless_all "rocketry.task" 1) ex_happenings /\ Forall (harmless "rocketry.task" 1 1) ex_happenings /\
  said 1 ex_happenings = [rec_run; rec_ok] /\ said_all ex_happenings = [rec_run; rec_fail; rec_ok] /\
  let w := steps_of (HApp "rocketry.task" 1 :: ex_happenings) (ex_bare, ex_stores) in
  read_task (fst w) (snd w) "rocketry.task" 1 = Ok [ex_old; rec_run; rec_ok] /\
  get_task_log "rocketry.task" (fst w) (snd w) = Ok [ex_old; rec_run; rec_fail; rec_ok].
Proof.
  split; [apply ex_unused|]. split; [apply ex_sole|]. split; [reflexivity|]. split; [exact ex_harmless|].
  split; [eapply Forall_impl; [|exact ex_harmless]; intros ev H; exact (proj1 H 1)|].
  split; [reflexivity|]. split; [reflexivity|]. cbv zeta. split; vm_compute; reflexivity.
Qed.

(** The same holds from the moment set_repo of the task logger is called, if the logger lets INFO through, ... *)
Theorem c66_set_repo_partial : forall base r task reg st evs, unused r reg -> open_level base reg -> Forall (harmless base r task) evs ->
  let w := steps_of (HSetRepo base r :: evs) (reg, st) in
  read_task (fst w) (snd w) base task = Ok (filter (fun x => r_task x =? task) (st r) ++ said task evs).
Proof. exact set_repo_keeps. Qed.
Print Assumptions c66_set_repo_partial.

(** ... and, without any application, from the creation of the first task of a session whose logger has
    no repository, when the session sets up one in memory and, if need be, the level.  Missing: that
    the level is let through by a logger above only, which can be changed. *)
Theorem c66_default_partial : forall base r task reg st evs, unused r reg -> without_repo base reg -> is_private base = false ->
  open_level base reg \/ strict_above base reg -> Forall (harmless base r task) evs ->
  let w := steps_of (HCheck base r :: evs) (reg, st) in
  read_task (fst w) (snd w) base task = Ok (filter (fun x => r_task x =? task) (st r) ++ said task evs).
Proof. exact check_keeps. Qed.
Print Assumptions c66_default_partial.

Example c66_default_met : unused 1 ex_bare /\ without_repo "rocketry.task" ex_bare /\ is_private "rocketry.task" = false /\
  strict_above "rocketry.task" ex_bare /\ unused 1 (new_app "rocketry.task" 3 ex_bare) /\
  open_level "rocketry.task" (new_app "rocketry.task" 3 ex_bare) /\ Forall (harmless "rocketry.task" 1 1) ex_happenings /\
  (let w := steps_of (HCheck "rocketry.task" 1 :: ex_happenings) (ex_bare, ex_none) in
   read_task (fst w) (snd w) "rocketry.task" 1 = Ok [rec_run; rec_ok]) /\
  (let w := steps_of (HSetRepo "rocketry.task" 1 :: ex_happenings) (new_app "rocketry.task" 3 ex_bare, ex_stores) in
   read_task (fst w) (snd w) "rocketry.task" 1 = Ok [ex_old; rec_run; rec_ok] /\ snd w 3 = []).
Proof.
  split; [apply ex_unused|]. split; [intros h []|]. split; [reflexivity|]. split; [split; vm_compute; reflexivity|].
  split; [split; [intros h [<- |[]]; discriminate|intros n g h H I; destruct (string_dec n "rocketry.task") as [-> |D];
    [vm_compute in H; injection H as <-; destruct I as [<- |[]]; discriminate
    |unfold new_app in H; rewrite look_change_other in H by exact D; discriminate H]]|].
  split; [split; vm_compute; congruence|].
  split; [eapply Forall_impl; [|exact ex_harmless]; intros ev H; exact (proj1 H 1)|].
  cbv zeta. split; [vm_compute; reflexivity|split; vm_compute; reflexivity].
Qed.

(** The first session with a time_func that is started with an unstamped logger stamps its records, ever after *)
Theorem c66_clock_partial : forall base s reg st evs, stamped_by base reg = None ->
  (forall b, In (HDelete b) evs -> String.prefix b base = false) ->
  stamped_by base (fst (steps_of (HWrap base s true :: evs) (reg, st))) = Some s.
Proof. exact clock_kept. Qed.
Print Assumptions c66_clock_partial.

Example c66_clock_met : stamped_by "rocketry.task" ex_bare = None /\
  (forall b, In (HDelete b) ex_happenings -> String.prefix b "rocketry.task" = false).
Proof.
  split; [reflexivity|]. intros b I. unfold ex_happenings in I. cbn [In] in I.
  repeat (destruct I as [I|I]; [try discriminate I; injection I as <-; reflexivity|]). destruct I.
Qed.

(** A logger object is only accepted if the session will find it by its name *)
Theorem c66_logger_checked : forall base n, task_logger_name base (NameLogger n) = Ok n <-> String.prefix base n = true.
Proof. exact names_checked. Qed.
Print Assumptions c66_logger_checked.

Example c66_logger_checked_met : task_logger_name "rocketry.task" (NameLogger "rocketry.task.mine") = Ok "rocketry.task.mine"%string /\
  task_logger_name "rocketry.task" (NameLogger "mine") = Err ValueError.
Proof. split; reflexivity. Qed.

(** C66 fails for a second application with the same base name, such as the default one: the records
    in the repository of the first are no longer read. *)
Theorem c66_shared_refuted : exists base r q reg st task,
  unused r reg /\ unused q reg /\ q <> r /\
  let w := steps_of [HApp base r; HApp base q] (reg, st) in
  filter (fun x => r_task x =? task) (st r) <> [] /\ read_task (fst w) (snd w) base task = Ok [].
Proof. exact shared_wrong. Qed.
Print Assumptions c66_shared_refuted.

(** It fails for the tasks of a group in an application whose base name is not the default: their
    records reach neither the repository of the application nor the log of its session. *)
Theorem c66_group_refuted : exists base n r q reg st x,
  unused r reg /\ q <> r /\ task_logger_name base NoName = Ok base /\ group_logger_name NoName = Ok n /\
  let w := steps_of [HApp base r; HCheck default_base q; HLog n x] (reg, st) in
  snd w r = [] /\ get_task_log base (fst w) (snd w) = Ok [].
Proof. exact group_wrong. Qed.
Print Assumptions c66_group_refuted.

(** A task with a logger below that of the application: its records reach the repository of the
    application but cannot be read for the task, nor can the log of the session be; *)
Theorem c66_child_unreadable_refuted : exists base n r reg st x,
  unused r reg /\ task_logger_name base (NameLogger n) = Ok n /\
  let w := steps_of [HApp base r; HLog n x] (reg, st) in
  snd w r = [x] /\ read_task (fst w) (snd w) n (r_task x) = Err AttributeError /\
  get_task_log base (fst w) (snd w) = Err AttributeError.
Proof. exact child_unreadable. Qed.
Print Assumptions c66_child_unreadable_refuted.

(** with a repository of its own everything is in the log of the session twice; *)
Theorem c66_child_twice_refuted : exists base n r q reg st x,
  unused r reg /\ unused q reg /\ q <> r /\ task_logger_name base (NameLogger n) = Ok n /\
  let w := steps_of [HApp base r; HAdd n (repo_handler q); HLog n x] (reg, st) in
  get_task_log base (fst w) (snd w) = Ok [x; x].
Proof. exact child_twice. Qed.
Print Assumptions c66_child_twice_refuted.

(** and with a level above INFO its starts and successes are lost, although the session checks the
    level of its own logger. *)
Theorem c66_child_level_refuted : exists base n r q reg st x,
  unused r reg /\ unused q reg /\ q <> r /\ task_logger_name base (NameLogger n) = Ok n /\
  let w := steps_of [HApp base r; HAdd n (repo_handler q); HLevel n 30; HCheck base 9; HLog n x] (reg, st) in
  read_task (fst w) (snd w) n (r_task x) = Ok [] /\ snd w r = [].
Proof. exact child_level. Qed.
Print Assumptions c66_child_level_refuted.

(** The log of a session has the records of another application whose base name begins with its own *)
Theorem c66_prefix_refuted : exists base other r q reg st x,
  other <> base /\ unused r reg /\ unused q reg /\ q <> r /\
  let w := steps_of [HApp base r; HApp other q; HLog other x] (reg, st) in
  snd w r = [] /\ get_task_log base (fst w) (snd w) = Ok [x].
Proof. exact prefix_wrong. Qed.
Print Assumptions c66_prefix_refuted.

(** A logger given by its name is not checked: the same name is accepted, the records are lost *)
Theorem c66_text_refuted : exists base n r reg st x,
  unused r reg /\ task_logger_name base (NameLogger n) = Err ValueError /\ task_logger_name base (NameText n) = Ok n /\
  let w := steps_of [HApp base r; HLog n x] (reg, st) in
  snd w r = [] /\ get_task_log base (fst w) (snd w) = Ok [] /\ read_task (fst w) (snd w) n (r_task x) = Err AttributeError.
Proof. exact text_wrong. Qed.
Print Assumptions c66_text_refuted.

(** The records of the second session with a time_func get the time of the first; those of a task with
    a logger of its own get the time of the system *)
Theorem c66_clock_refuted : exists base n s s' reg st, s' <> s /\ stamped_by base reg = None /\ task_logger_name base (NameLogger n) = Ok n /\
  stamped_by base (fst (steps_of [HWrap base s true; HWrap base s' true] (reg, st))) = Some s /\
  stamped_by n (fst (steps_of [HWrap base s true] (reg, st))) = None.
Proof. exact clock_wrong. Qed.
Print Assumptions c66_clock_refuted.
