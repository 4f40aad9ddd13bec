(** C64: restarting. *)
From Coq Require Import Bool Arith Lia ZifyBool.
From Verif Require Import Model.Base Model.History Model.World Model.Run Model.Scheduler Model.Relaunch.
From Verif Require Import Spec.SchedulerSpec Spec.RelaunchSpec.
From Verif Require Import Proofs.SchedulerExamples Proofs.ShutdownExamples Proofs.RelaunchProofs Proofs.RelaunchResults Proofs.RelaunchExamples.
Open Scope Z_scope.

(** With restarting = "recall" the whole is a chain of complete sessions: each
    one but the last was asked to restart, shut down without an error and left
    no run alive (hooks do not fail). *)
Theorem c64_recall : forall orc cf fuel n w w' o, (forall k, o_hook orc k = None) ->
  serve_restart orc cf Recall fuel n w = (w', o) -> o <> OutOfFuel ->
  exists o' k, (k < n)%nat /\ sessions orc cf fuel w w' o' k /\ outcome_of o o' /\ o <> Returns Launched.
Proof. exact recalled. Qed.
Print Assumptions c64_recall.

Example c64_recall_met :
  let orc := ex_oracle (ex_asks 9) in let p := serve_restart orc ex_config Recall 30 3 (ex_main 3) in
  (forall k, o_hook orc k = None) /\ snd p = Returns Stopped /\
  sessions orc ex_config 30 (ex_main 3) (fst p) (Returns tt) 1 /\
  filter (fun e => match e with EvStartup | EvShutdown | EvCycle => true | _ => false end) (ex_events (fst p)) =
    [EvStartup; EvCycle; EvShutdown; EvStartup; EvCycle; EvCycle; EvCycle; EvShutdown].
Proof.
  split; [reflexivity|]. split; [vm_compute; reflexivity|]. split; [|vm_compute; reflexivity].
  eapply next_session; [vm_compute; reflexivity|vm_compute; reflexivity|vm_compute; intros r []|].
  apply last_session; [vm_compute; reflexivity|]. unfold restart_called. vm_compute. intros [H _]. discriminate H.
Qed.

(** Otherwise a new process is launched exactly when the session was asked to
    restart and has shut down without an error. *)
Theorem c64_launch : forall orc cf fuel n w w',
  serve_restart orc cf Launch fuel (S n) w = (w', Returns Launched) <->
  restart_called orc cf fuel w /\ serve orc cf fuel w = (w', Returns tt).
Proof. exact launched. Qed.
Print Assumptions c64_launch.

(** An unknown setting is an error, but only after everything has been shut down. *)
Theorem c64_unknown : forall orc cf fuel n w w', restart_called orc cf fuel w -> serve orc cf fuel w = (w', Returns tt) ->
  serve_restart orc cf Unknown fuel (S n) w = (w', Raises ValueError).
Proof. exact unknown. Qed.
Print Assumptions c64_unknown.

Example c64_launch_met :
  let orc := ex_oracle (ex_asks 9) in let w' := fst (serve orc ex_config 30 (ex_main 3)) in
  restart_called orc ex_config 30 (ex_main 3) /\ serve orc ex_config 30 (ex_main 3) = (w', Returns tt) /\
  snd (serve_restart orc ex_config Launch 30 1 (ex_main 3)) = Returns Launched /\
  snd (serve_restart orc ex_config Unknown 30 1 (ex_main 3)) = Raises ValueError /\
  snd (serve_restart (ex_oracle ex_quiet) ex_config Launch 30 1 (ex_main 3)) = Returns Stopped.
Proof. split; [vm_compute; reflexivity|]. split; [vm_compute; reflexivity|]. split; [vm_compute; reflexivity|]. split; vm_compute; reflexivity. Qed.

(** Without a request and without anything that raises SchedulerRestart there is
    one session, whatever the setting. *)
Theorem c64_only_on_request : forall orc cf how fuel n w, nobody_restarts orc ->
  (forall r, In r (tracked w) -> rn_phase r <> Over (Some SchedulerRestart)) ->
  exists o, serve_restart orc cf how fuel (S n) w = (fst (serve orc cf fuel w), o) /\
    outcome_of o (snd (serve orc cf fuel w)) /\ o <> Returns Launched.
Proof. exact only_on_request. Qed.
Print Assumptions c64_only_on_request.

Example c64_only_met :
  let orc := ex_oracle (fun k => MEnter 0 good_script :: ex_leaves 30 k) in
  nobody_restarts orc /\ tracked ex_one = [] /\
  snd (serve_restart orc ex_config Recall 40 2 ex_one) = Returns Stopped /\
  ex_started (fst (serve_restart orc ex_config Recall 40 2 ex_one)) = [(1, 0%nat)].
Proof.
  assert (G : mild_script good_script).
  { intros f [<- |[<- |[<- |[<- |[<- |[<- |[<- |[]]]]]]]]; discriminate. }
  split; [|split; [reflexivity|]; split; vm_compute; reflexivity].
  constructor; try (intros k; discriminate); [|intros k; exact G].
  intros k m [<- |H]; [exact G|]. unfold ex_leaves in H. destruct (Nat.leb 30 k); [|destruct H]. destruct H as [<- |[]]. exact G.
Qed.

(** A request is kept till the end of the cycle (or of the startup) in which it
    was made. *)
Theorem c64_kept : forall orc cf fuel w, w_restart w = true ->
  w_restart (fst (run_cycle orc cf fuel w)) = true /\ w_restart (fst (startup orc cf fuel w)) = true.
Proof. exact request_kept. Qed.
Print Assumptions c64_kept.

(** After it neither a cycle nor a run begins, and the loop ends at once. *)
Theorem c64_last_cycle : forall orc cf fuel w evs, w_restart w = true ->
  happened w (fst (main_loop orc cf (S fuel) w)) evs ->
  nothing_begins evs /\ snd (main_loop orc cf (S fuel) w) <> OutOfFuel.
Proof. exact asked_ends. Qed.
Print Assumptions c64_last_cycle.

(** It is heard if nobody shuts the scheduler down and the shut condition does
    not hold. *)
Theorem c64_heard_partial : forall orc cf fuel w, (forall f, never orc (MShutdown f)) -> w_shutdown w = false -> goes_on orc w ->
  w_restart w = true -> snd (main_loop orc cf (S fuel) w) = Raises SchedulerRestart.
Proof. exact asked_restarts. Qed.
Print Assumptions c64_heard_partial.

Example c64_heard_met :
  let orc := ex_oracle (ex_asks 9) in let w := fst (startup orc ex_config 30 (ex_main 3)) in
  let w1 := fst (run_cycle orc ex_config 30 w) in
  w_restart w = false /\ snd (run_cycle orc ex_config 30 w) = Returns tt /\ w_restart w1 = true /\ w_shutdown w1 = false /\
  goes_on orc w1 /\ (forall f, never orc (MShutdown f)) /\
  happened w1 (fst (main_loop orc ex_config 30 w1)) [] /\ cycles (ex_events w1) = 1%nat.
Proof.
  do 4 (split; [vm_compute; reflexivity|]). split; [vm_compute; repeat constructor|].
  split; [|split; vm_compute; reflexivity].
  intros f k. unfold ex_oracle, ex_asks. cbn. destruct (Nat.eqb k 9); [|intros []]. intros [H|[]]. discriminate H.
Qed.

(** A task in the main thread that raises SchedulerRestart, as the Restart task
    does, restarts: it is recorded as a success and the exception reaches the
    loop. *)
Theorem c64_raised : forall orc cf n i fuel w t, find_task n w = Some t -> o_prep orc (w_tick w) = None ->
  o_run_id orc (S (w_tick w)) = Ok i -> (forall k, o_write orc k = true) -> (forall k, tidy (o_script orc k)) ->
  (forall k, s_exec (o_script orc k) = Some SchedulerRestart) -> (forall k, s_setup (o_script orc k) = None) ->
  executes cf t XMain -> unused i w ->
  exists w' l c, run_task orc cf fuel n w = (w', Raises SchedulerRestart) /\ w_log w' = w_log w ++ l ++ [Rec n ASuccess c None].
Proof. exact main_raises. Qed.
Print Assumptions c64_raised.

Example c64_raised_met :
  let w := ex_main 2 in let t := ex_task (ex_cfg 1 XMain 0) in
  find_task 1 w = Some t /\ tidy restart_script /\ executes ex_config t XMain /\ unused 1 w /\
  snd (run_task ex_raising ex_config 20 1 w) = Raises SchedulerRestart /\
  snd (serve_restart ex_raising ex_config Launch 40 1 w) = Returns Launched.
Proof.
  split; [reflexivity|]. split; [repeat split; discriminate|]. split; [reflexivity|].
  split; [split; [intros r []|intros m r []]|]. split; vm_compute; reflexivity.
Qed.

(** A request made in the last cycle of a session, one that its shut condition
    ends, is lost: nothing restarts, and the next start forgets it. *)
Theorem c64_lost_refuted : exists orc cf fuel n w w1 w',
  (forall f, never orc (MShutdown f)) /\
  (startup orc cf fuel ;; main_loop orc cf fuel) (set_flags true false false (w_force w) w) = (w1, Returns tt) /\
  w_restart w1 = true /\ (exists k, In MRestart (o_env orc k)) /\
  serve_restart orc cf Launch fuel n w = (w', Returns Stopped) /\ w_restart w' = true /\
  w_restart (set_flags true false false (w_force w') w') = false.
Proof. exact request_lost. Qed.
Print Assumptions c64_lost_refuted.

(** An asynchronous run that raises SchedulerRestart is recorded as a success
    and does not restart anything. *)
Theorem c64_async_refuted : exists orc cf fuel n w w' c,
  (forall k, In (MLeave 0 restart_script) (o_env orc k)) /\ s_exec restart_script = Some SchedulerRestart /\
  serve_restart orc cf Launch fuel n w = (w', Returns Stopped) /\ In (Rec 1 ASuccess c None) (w_log w') /\ ~ restart_called orc cf fuel w.
Proof. exact async_raise_lost. Qed.
Print Assumptions c64_async_refuted.
