(** C33: shutting down. *)
From Coq Require Import Arith Lia ZifyBool.
From Verif Require Import Model.Base Model.History Model.World Model.Run Model.Scheduler.
From Verif Require Import Spec.SchedulerSpec Proofs.StackProofs Proofs.TerminationProofs Proofs.ShutdownProofs.
From Verif Require Import Proofs.SchedulerExamples Proofs.TerminationExamples Proofs.ShutdownExamples.
Open Scope Z_scope.

(** A session that comes to its end, normally or by an exception, leaves no run
    alive (hooks do not fail). *)
Theorem c33_no_live_run : forall orc cf fuel w, (forall k, o_hook orc k = None) ->
  snd (serve orc cf fuel w) <> OutOfFuel ->
  forall r, In r (tracked (fst (serve orc cf fuel w))) -> live r = false.
Proof. exact serve_over. Qed.
Print Assumptions c33_no_live_run.

Theorem c33_hook_failure_refuted : exists orc cf fuel w e,
  no_runs w /\ snd (serve orc cf fuel w) = Raises e /\ exists u, live_in (fst (serve orc cf fuel w)) u.
Proof. exact hook_leaves_live. Qed.
Print Assumptions c33_hook_failure_refuted.

Example c33_no_live_run_met :
  let orc := ex_oracle (fun k => MEnter 0 good_script :: ex_leaves 30 k) in let w' := fst (serve orc ex_config 40 ex_one) in
  (forall k, o_hook orc k = None) /\ snd (serve orc ex_config 40 ex_one) = Returns tt /\
  ex_started w' = [(1, 0%nat)] /\ ex_alive w' = [] /\ ex_alive ex_busy = [0%nat].
Proof. split; [reflexivity|]. repeat split; vm_compute; reflexivity. Qed.

(** Instant shutdown, forced shutdown and shutdown because of an error
    terminate every run. *)
Theorem c33_instant_terminates : forall orc cf fuel x w w' evs t r, distinct_names w -> distinct_runs w ->
  cf_instant cf = true \/ w_force w = true \/ erroneous x ->
  shut_down_tasks orc cf fuel x w = (w', Returns tt) -> happened w w' evs -> In t (w_tasks w) -> In r (t_stack t) ->
  stopped w' (rn_uid r) /\ (In (EvTerminate (t_name t) (rn_uid r)) evs \/ ~ live_in w' (rn_uid r)).
Proof. exact instant_terminates. Qed.
Print Assumptions c33_instant_terminates.

Example c33_instant_met :
  let w := ex_four 500 None in let force w := set_flags true true false true w in
  let down x w := shut_down_tasks (ex_cancel (Ok false) ex_quiet) ex_config 20 x w in
  distinct_names w /\ distinct_runs w /\ ex_alive w = [0; 2; 1; 3]%nat /\
  w_force (force w) = true /\ snd (down None (force w)) = Returns tt /\
  ex_ended (force w) (fst (down None (force w))) = [(1, 0%nat); (1, 2%nat); (2, 1%nat); (2, 3%nat)] /\
  erroneous (Some ValueError) /\ snd (down (Some ValueError) w) = Returns tt /\
  ex_ended w (fst (down (Some ValueError) w)) = [(1, 0%nat); (1, 2%nat); (2, 1%nat); (2, 3%nat)].
Proof.
  split; [vm_compute; repeat constructor; cbn; intuition discriminate|].
  split; [vm_compute; repeat constructor; cbn; intuition discriminate|].
  do 4 (split; [vm_compute; reflexivity|]). split; [split; discriminate|]. split; vm_compute; reflexivity.
Qed.

(** A force that was used once stays in effect in the next session. *)
Theorem c33_force_persists_refuted : exists orc orc' cf fuel w w1 n u evs,
  cf_instant cf = false /\ w_force w = false /\ serve orc cf fuel w = (w1, Returns tt) /\ no_runs w1 /\
  (forall f, never orc' (MShutdown f)) /\
  snd (serve orc' cf fuel w1) = Returns tt /\ happened w1 (fst (serve orc' cf fuel w1)) evs /\
  earlier evs EvShutdown (EvTerminate n u).
Proof. exact force_persists. Qed.
Print Assumptions c33_force_persists_refuted.

(** Once the scheduler waits for its runs, a forced shutdown is not heard. *)
Theorem c33_repeated_ignored_refuted : exists orc cf fuel w w' n u evs,
  w_force w = false /\ live_in w u /\
  (forall k, In (MShutdown (Some true)) (o_env orc k)) /\
  (forall k s, In (MLeave u s) (o_env orc k) -> (w_tick w + 10 <= k)%nat) /\
  shut_down orc cf fuel None w = (w', Returns tt) /\ w_force w' = true /\ happened w w' evs /\
  ~ In (EvTerminate n u) evs.
Proof. exact repeated_ignored. Qed.
Print Assumptions c33_repeated_ignored_refuted.

(** An ordinary shutdown does not terminate a run that has time. *)
Theorem c33_gentle_waits : forall orc cf fuel x w w' A B n u evs,
  unhurried orc cf A B n w -> cf_instant cf = false -> ~ erroneous x ->
  shut_down orc cf fuel x w = (w', Returns tt) -> happened w w' evs -> ~ In (EvTerminate n u) evs.
Proof. exact gentle_waits. Qed.
Print Assumptions c33_gentle_waits.

(** The run goes on for some questions to the outside, until the time 2600;
    its timeout is 1800 and it began at 1500 or before. *)
Example c33_gentle_met :
  let orc := ex_oracle (fun k => MClock (1100 + 50 * Z.of_nat (Nat.min k 30)) :: ex_leaves 35 k) in
  let w := ex_busy in let r := shut_down orc ex_config 30 None w in
  unhurried orc ex_config 1000 2800 1 w /\ cf_instant ex_config = false /\ ~ erroneous None /\
  snd r = Returns tt /\ ex_alive w = [0%nat] /\ ex_alive (fst r) = [] /\ ex_ended w (fst r) = [] /\
  w_tick w = 25%nat /\ Nat.ltb 34 (w_tick (fst r)) = true.
Proof.
  split.
  { apply ex_unhurried_ok; [vm_compute; reflexivity| |reflexivity].
    intros k m Hm. destruct Hm as [<- | Hm]; [lia|]. unfold ex_leaves in Hm. destruct (Nat.leb 35 k); [|destruct Hm]. destruct Hm as [<- | []]. exact I. }
  split; [reflexivity|]. split; [intros [H _]; now apply H|]. do 5 (split; [vm_compute; reflexivity|]). vm_compute. reflexivity.
Qed.

(** The wait terminates the runs of a permanent task. *)
Theorem c33_permanent_terminated : forall orc cf w w' evs t r,
  distinct_names w -> distinct_runs w -> In t (w_tasks w) -> In r (t_stack t) ->
  tc_permanent (t_cfg t) = true -> wait_turn orc cf (t_name t) w = (w', Returns tt) -> happened w w' evs ->
  stopped w' (rn_uid r) /\ In (EvTerminate (t_name t) (rn_uid r)) evs.
Proof. exact permanent_terminated. Qed.
Print Assumptions c33_permanent_terminated.

Example c33_permanent_met :
  let w := ex_four 500 None in let r := wait_turn (ex_cancel (Ok false) ex_quiet) ex_config 2 w in
  distinct_names w /\ distinct_runs w /\ map (fun t => tc_permanent (t_cfg t)) (w_tasks w) = [false; true] /\
  snd r = Returns tt /\ ex_ended w (fst r) = [(2, 1%nat); (2, 3%nat)].
Proof.
  split; [vm_compute; repeat constructor; cbn; intuition discriminate|].
  split; [vm_compute; repeat constructor; cbn; intuition discriminate|]. repeat split; vm_compute; reflexivity.
Qed.
