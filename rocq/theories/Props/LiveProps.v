(** C76: a task that is due is run. *)
From Coq Require Import ZArith List.
From Verif Require Import Model.Base Model.Interval Model.Calendar Model.Anchored Model.Period Model.Condition Model.History.
From Verif Require Import Spec.HistorySpec Spec.SchedulerSpec Model.World Model.Run Model.Scheduler.
From Verif Require Import Spec.OnceSpec Spec.LiveSpec Proofs.SchedulerExamples Proofs.OnceExamples Proofs.DoneServed Proofs.LiveServed Proofs.LiveExamples.
Import ListNotations.
Open Scope Z_scope.

(** A task whose condition holds during a cycle is recorded as run in it, in
    whatever order the tasks come and whatever goes on meanwhile.  (For a process:
    if a slot is free when the scheduler comes to it.) *)
Theorem c76_due : forall orc cf me time fuel w w1 w2,
  fair_session orc me time w -> always_made orc -> session_cycle orc cf fuel w w1 w2 -> ready cf me w1 -> slot_when_considered cf me w1 w2 ->
  forall gate, follows orc me gate -> due_during me gate w1 w2 -> run_in_cycle me w1 w2 (fst (serve orc cf fuel w)).
Proof. exact due_run. Qed.
Print Assumptions c76_due.

Example c76_due_case : exists w1 w2,
  (fair_session (ex_here (fun _ _ _ => true)) 2 (ex_time ex_twenty) ex_both /\ always_made (ex_here (fun _ _ _ => true)) /\
   session_cycle (ex_here (fun _ _ _ => true)) ex_patient 60 ex_both w1 w2 /\ ready ex_patient 2 w1 /\ slot_when_considered ex_patient 2 w1 w2 /\
   follows (ex_here (fun _ _ _ => true)) 2 (fun _ _ => true) /\ due_during 2 (fun _ _ => true) w1 w2) /\ ex_new_runs 2 w1 w2 = [31].
Proof.
  destruct (ex_session (ex_here (fun _ _ _ => true)) ex_patient 2 60 ex_both 2 (fun w1 w2 => ex_z_list_eqb (ex_new_runs 2 w1 w2) [31])) as (w1 & w2 & S & R & SL & N);
    [vm_compute; reflexivity|].
  exists w1, w2. split; [|now apply ex_z_list]. split; [apply ex_both_fair|]. split; [apply ex_both_made|]. split; [exact S|]. split; [exact R|]. split; [exact SL|].
  split; [exact (ex_follows (fun _ _ _ => true) _ _ 2)|]. intros v t _ _. reflexivity.
Qed.

(** The second task is a process, and the second cycle starts it again. *)
Example c76_due_process_case : exists w1 w2,
  (fair_session (ex_served (fun _ _ _ => true)) 2 (ex_time ex_twenty) ex_pair /\ always_made (ex_served (fun _ _ _ => true)) /\
   session_cycle (ex_served (fun _ _ _ => true)) ex_patient 60 ex_pair w1 w2 /\ ready ex_patient 2 w1 /\ slot_when_considered ex_patient 2 w1 w2 /\
   follows (ex_served (fun _ _ _ => true)) 2 (fun _ _ => true) /\ due_during 2 (fun _ _ => true) w1 w2) /\
  (exists t, In t (w_tasks w1) /\ t_name t = 2 /\ executes ex_patient t XProcess) /\ ex_new_runs 2 w1 w2 = [21].
Proof.
  destruct (ex_session (ex_served (fun _ _ _ => true)) ex_patient 1 60 ex_pair 2 (fun w1 w2 => ex_is_process ex_patient 2 w1 && ex_z_list_eqb (ex_new_runs 2 w1 w2) [21])%bool) as (w1 & w2 & S & R & SL & N);
    [vm_compute; reflexivity|].
  apply andb_prop in N as [N1 N2].
  exists w1, w2. split; [|split; [now apply ex_process|now apply ex_z_list]]. split; [apply ex_pair_fair|]. split; [apply ex_pair_made|]. split; [exact S|]. split; [exact R|]. split; [exact SL|].
  split; [exact (ex_follows (fun _ _ _ => true) _ _ 2)|]. intros v t _ _. reflexivity.
Qed.

(** Once a period: when a whole cycle falls in a window of the period, the task
    is recorded as run in that window. *)
Theorem c76_once : forall orc cf me time fuel w w1 w2,
  fair_session orc me time w -> always_made orc -> session_cycle orc cf fuel w w1 w2 -> ready cf me w1 -> slot_when_considered cf me w1 w2 ->
  forall force n p s e, follows orc me (gate_runnable me force n p) -> occurrence p s e -> s < w_clock w1 -> w_clock w2 < e ->
  exists r, In r (w_log (fst (serve orc cf fuel w))) /\ run_record me r /\ s <= r_created r < e.
Proof. exact once_run. Qed.
Print Assumptions c76_once.

Example c76_once_case : exists w1 w2,
  (fair_session (ex_here ex_gate_once) 1 (ex_time ex_twenty) ex_both /\ always_made (ex_here ex_gate_once) /\
   session_cycle (ex_here ex_gate_once) ex_patient 60 ex_both w1 w2 /\ ready ex_patient 1 w1 /\ slot_when_considered ex_patient 1 w1 w2 /\ follows (ex_here ex_gate_once) 1 (gate_runnable 1 false 5 ex_day)) /\
  (forall k, occurrence ex_day (us_day * k) (us_day * k + us_day)) /\ us_day * 1001 < w_clock w1 /\ w_clock w2 < us_day * 1001 + us_day /\
  ex_new_runs 1 w1 w2 = [33].
Proof.
  destruct (ex_session (ex_here ex_gate_once) ex_patient 3 60 ex_both 1 (fun w1 w2 => ex_within 1001 w1 w2 && ex_z_list_eqb (ex_new_runs 1 w1 w2) [33])%bool) as (w1 & w2 & S & R & SL & N);
    [vm_compute; reflexivity|].
  apply andb_prop in N as [N1 N2]. apply andb_prop in N1 as [N1 N3]. apply Z.ltb_lt in N1, N3.
  exists w1, w2. split; [|split; [exact ex_day_occurrence|split; [exact N1|split; [exact N3|now apply ex_z_list]]]].
  split; [apply ex_both_fair|]. split; [apply ex_both_made|]. split; [exact S|]. split; [exact R|]. split; [exact SL|]. exact (ex_follows ex_gate_once _ _ 1).
Qed.

(** To succeed once a period: when a whole cycle falls in a window of the period,
    the task is run in the cycle unless it succeeded, was inactive or terminated
    in the window, or failed in it more often than it may be retried. *)
Theorem c76_executed : forall orc cf me time fuel w w1 w2,
  fair_session orc me time w -> always_made orc -> session_cycle orc cf fuel w w1 w2 -> ready cf me w1 -> slot_when_considered cf me w1 w2 ->
  forall force retries n p s e, follows orc me (gate_executable me force retries n p) -> occurrence p s e -> s < w_clock w1 -> w_clock w2 < e ->
  run_in_cycle me w1 w2 (fst (serve orc cf fuel w)) \/
  (exists x, In x (w_log w2) /\ about me [ASuccess; AInaction; ATerminate] x /\ s <= r_created x < e) \/
  match retries with None => 0 | Some n => n end < times (w_log w2) me [AFail] s (w_clock w2).
Proof. exact executed_run. Qed.
Print Assumptions c76_executed.

Example c76_executed_case : exists w1 w2,
  (fair_session (ex_here ex_gate_retry) 1 (ex_time ex_twenty) ex_both /\ always_made (ex_here ex_gate_retry) /\
   session_cycle (ex_here ex_gate_retry) ex_patient 60 ex_both w1 w2 /\ ready ex_patient 1 w1 /\ slot_when_considered ex_patient 1 w1 w2 /\ follows (ex_here ex_gate_retry) 1 (gate_executable 1 false (Some 1) 5 ex_day)) /\
  (forall k, occurrence ex_day (us_day * k) (us_day * k + us_day)) /\ us_day * 1000 < w_clock w1 /\ w_clock w2 < us_day * 1000 + us_day /\
  ex_new_runs 1 w1 w2 = [16].
Proof.
  destruct (ex_session (ex_here ex_gate_retry) ex_patient 1 60 ex_both 1 (fun w1 w2 => ex_within 1000 w1 w2 && ex_z_list_eqb (ex_new_runs 1 w1 w2) [16])%bool) as (w1 & w2 & S & R & SL & N);
    [vm_compute; reflexivity|].
  apply andb_prop in N as [N1 N2]. apply andb_prop in N1 as [N1 N3]. apply Z.ltb_lt in N1, N3.
  exists w1, w2. split; [|split; [exact ex_day_occurrence|split; [exact N1|split; [exact N3|now apply ex_z_list]]]].
  split; [apply ex_both_fair|]. split; [apply ex_both_made|]. split; [exact S|]. split; [exact R|]. split; [exact SL|]. exact (ex_follows ex_gate_retry _ _ 1).
Qed.

(** every(X): a cycle in which the task is not run had a record of the kind
    within X before it began, or during it. *)
Theorem c76_every : forall orc cf me time fuel w w1 w2,
  fair_session orc me time w -> always_made orc -> session_cycle orc cf fuel w w1 w2 -> ready cf me w1 -> slot_when_considered cf me w1 w2 ->
  forall force a n past, follows orc me (gate_every me force (WOne a) n past) ->
  run_in_cycle me w1 w2 (fst (serve orc cf fuel w)) \/
  exists x, In x (w_log w2) /\ about me [a] x /\ w_clock w1 - Z.abs past <= r_created x.
Proof. exact every_run. Qed.
Print Assumptions c76_every.

Example c76_every_case : exists w1 w2,
  (fair_session (ex_here ex_gate_succeeded) 2 (ex_time ex_twenty) ex_both /\ always_made (ex_here ex_gate_succeeded) /\
   session_cycle (ex_here ex_gate_succeeded) ex_patient 60 ex_both w1 w2 /\ ready ex_patient 2 w1 /\ slot_when_considered ex_patient 2 w1 w2 /\
   follows (ex_here ex_gate_succeeded) 2 (gate_every 2 true (WOne ASuccess) 5 (20 * us_hour))) /\ ex_new_runs 2 w1 w2 = [46].
Proof.
  destruct (ex_session (ex_here ex_gate_succeeded) ex_patient 4 60 ex_both 2 (fun w1 w2 => ex_z_list_eqb (ex_new_runs 2 w1 w2) [46])) as (w1 & w2 & S & R & SL & N);
    [vm_compute; reflexivity|].
  exists w1, w2. split; [|now apply ex_z_list].
  split; [apply ex_both_fair|]. split; [apply ex_both_made|]. split; [exact S|]. split; [exact R|]. split; [exact SL|]. exact (ex_follows ex_gate_succeeded _ _ 2).
Qed.

(** After another task: once an outcome of the other is in the log when a cycle
    begins, there is a run of the task that is no older than it.  (Outcomes
    recorded later are not dated earlier.) *)
Theorem c76_depend : forall orc cf me time fuel w w1 w2,
  fair_session orc me time w -> always_made orc -> session_cycle orc cf fuel w w1 w2 -> ready cf me w1 -> slot_when_considered cf me w1 w2 ->
  forall dep acts o, follows orc me (gate_depend me dep acts) -> In o (w_log w1) -> about dep acts o -> r_created o <= w_clock w1 ->
  (forall old x new, w_log w2 = old ++ o :: new -> In x new -> about dep acts x -> r_created o <= r_created x) ->
  exists r, In r (w_log (fst (serve orc cf fuel w))) /\ run_record me r /\ r_created o <= r_created r.
Proof. exact depend_run. Qed.
Print Assumptions c76_depend.

Example c76_depend_case : exists w1 w2,
  (fair_session (ex_here ex_gate_then) 1 (ex_time ex_twenty) ex_both /\ always_made (ex_here ex_gate_then) /\
   session_cycle (ex_here ex_gate_then) ex_patient 60 ex_both w1 w2 /\ ready ex_patient 1 w1 /\ slot_when_considered ex_patient 1 w1 w2 /\ follows (ex_here ex_gate_then) 1 (gate_depend 1 2 dep_finish)) /\
  (exists o, In o (w_log w1) /\ about 2 dep_finish o /\ r_created o <= w_clock w1 /\
    forall old x new, w_log w2 = old ++ o :: new -> In x new -> about 2 dep_finish x -> r_created o <= r_created x) /\
  ex_new_runs 1 w1 w2 = [15].
Proof.
  destruct (ex_session (ex_here ex_gate_then) ex_patient 1 60 ex_both 1 (fun w1 w2 => ex_outcome w1 w2 && ex_z_list_eqb (ex_new_runs 1 w1 w2) [15])%bool) as (w1 & w2 & S & R & SL & N);
    [vm_compute; reflexivity|].
  apply andb_prop in N as [N1 N2].
  exists w1, w2. split; [|split; [exact (ex_outcome_spec _ _ N1)|now apply ex_z_list]].
  split; [apply ex_both_fair|]. split; [apply ex_both_made|]. split; [exact S|]. split; [exact R|]. split; [exact SL|]. exact (ex_follows ex_gate_then _ _ 1).
Qed.

(** Without [always_made] it need not: when preparing the run fails while another
    run of the task goes on, the task is due, may be started and is not recorded
    as run. *)
Theorem c76_unmade_refuted : exists orc cf me time fuel gate w w1 w2,
  fair_session orc me time w /\ session_cycle orc cf fuel w w1 w2 /\ ready cf me w1 /\ slot_when_considered cf me w1 w2 /\ follows orc me gate /\ due_during me gate w1 w2 /\
  ~ run_in_cycle me w1 w2 (fst (serve orc cf fuel w)).
Proof. exact unmade_unrecorded. Qed.
Print Assumptions c76_unmade_refuted.

(** Without a slot it need not: while another process takes the only slot, a
    process that is due and may be started is not run. *)
Theorem c76_crowded_refuted : exists orc cf me time fuel gate w w1 w2,
  fair_session orc me time w /\ always_made orc /\ session_cycle orc cf fuel w w1 w2 /\ ready cf me w1 /\ follows orc me gate /\ due_during me gate w1 w2 /\
  ~ run_in_cycle me w1 w2 (fst (serve orc cf fuel w)).
Proof. exact crowded_out. Qed.
Print Assumptions c76_crowded_refuted.
