(** C31, C32: which runs are terminated. *)
From Verif Require Import Model.Base Model.History Model.World Model.Run Model.Scheduler.
From Verif Require Import Spec.SchedulerSpec Proofs.StackProofs Proofs.TerminationProofs.
From Verif Require Import Proofs.SchedulerExamples Proofs.TerminationExamples.
Open Scope Z_scope.

(** The hypothesis [distinct_runs] of what follows: *)
Theorem c31_runs_told_apart : forall orc cf fuel w, distinct_names w -> no_runs w -> distinct_runs (fst (serve orc cf fuel w)).
Proof. exact runs_distinct. Qed.
Print Assumptions c31_runs_told_apart.

(** C31 *)
Theorem c31_only_late : forall orc cf w t evs m u,
  distinct_names w -> distinct_runs w -> In t (w_tasks w) -> tc_timeout (t_cfg t) <> Some 0 ->
  ~ end_holds orc cf w -> t_term t = false ->
  happened w (fst (check_termination orc cf (t_name t) w)) evs -> In (EvTerminate m u) evs ->
  m = t_name t /\ tc_permanent (t_cfg t) = false /\
  exists r, In r (t_stack t) /\ rn_uid r = u /\ live r = true /\ late cf w t r.
Proof. exact only_late_spec. Qed.
Print Assumptions c31_only_late.

Theorem c31_late_terminated : forall orc cf w w' t evs r,
  distinct_names w -> distinct_runs w -> In t (w_tasks w) -> tc_timeout (t_cfg t) <> Some 0 ->
  ~ end_holds orc cf w -> t_term t = false -> tc_permanent (t_cfg t) = false ->
  check_termination orc cf (t_name t) w = (w', Returns tt) -> happened w w' evs ->
  In r (t_stack t) -> late cf w t r ->
  stopped w' (rn_uid r) /\ (In (EvTerminate (t_name t) (rn_uid r)) evs \/ ~ live_in w' (rn_uid r)).
Proof. exact late_terminated_spec. Qed.
Print Assumptions c31_late_terminated.

Theorem c31_zero_timeout_refuted : exists orc cf w t r evs, distinct_names w /\ distinct_runs w /\ In t (w_tasks w) /\
  ~ end_holds orc cf w /\ t_term t = false /\ tc_permanent (t_cfg t) = false /\ In r (t_stack t) /\ live r = true /\
  tc_timeout (t_cfg t) = Some 0 /\ late cf w t r /\
  snd (check_termination orc cf (t_name t) w) = Returns tt /\
  happened w (fst (check_termination orc cf (t_name t) w)) evs /\ (forall m u, ~ In (EvTerminate m u) evs) /\
  ~ stopped (fst (check_termination orc cf (t_name t) w)) (rn_uid r).
Proof. exact zero_timeout_ignored. Qed.
Print Assumptions c31_zero_timeout_refuted.

(** Of two runs that are 1000 and 500 old one is terminated for a timeout of
    700; for 300 the older one was already terminated in the second cycle
    and the other one is now; the permanent task's are not. *)
Example c31_met : let w := ex_four 500 (Some 700) in
  let check n w := fst (check_termination (ex_cancel (Ok false) ex_quiet) ex_config n w) in
  distinct_names w /\ distinct_runs w /\ ~ end_holds (ex_cancel (Ok false) ex_quiet) ex_config w /\
  ex_alive w = [0; 2; 1; 3]%nat /\
  ex_ended w (check 1 w) = [(1, 0%nat)] /\ ex_alive (check 1 w) = [2; 1; 3]%nat /\
  (let w := ex_four 500 (Some 300) in ex_ended w (check 1 w) = [(1, 2%nat)] /\ ex_ended (ex_world 3 []) w = [(1, 0%nat)]) /\
  (let w := ex_four 5000 None in ex_ended w (check 2 w) = []).
Proof.
  split; [vm_compute; repeat constructor; cbn; intuition discriminate|].
  split; [vm_compute; repeat constructor; cbn; intuition discriminate|].
  split; [intros [H|(e & H & _)]; vm_compute in H; discriminate H|]. repeat split; vm_compute; reflexivity.
Qed.

(** C32 *)
Theorem c32_all_terminated : forall orc cf w w' t evs, distinct_names w -> distinct_runs w -> In t (w_tasks w) ->
  end_holds orc cf w \/ (t_term t = true /\ o_end orc (w_tick w) = Ok false) ->
  check_termination orc cf (t_name t) w = (w', Returns tt) -> happened w w' evs ->
  (forall r, In r (t_stack t) -> stopped w' (rn_uid r) /\ In (EvTerminate (t_name t) (rn_uid r)) evs) /\
  exists t', In t' (w_tasks w') /\ t_name t' = t_name t /\ t_term t' = false.
Proof. exact all_terminated. Qed.
Print Assumptions c32_all_terminated.

Theorem c32_only_its_runs : forall orc cf w t evs m u, distinct_names w -> In t (w_tasks w) ->
  end_holds orc cf w \/ (t_term t = true /\ o_end orc (w_tick w) = Ok false) ->
  happened w (fst (check_termination orc cf (t_name t) w)) evs -> In (EvTerminate m u) evs ->
  m = t_name t /\ exists r, In r (t_stack t) /\ rn_uid r = u.
Proof. exact all_only. Qed.
Print Assumptions c32_only_its_runs.

(** An end condition's failure that is not silenced: nothing is terminated. *)
Theorem c32_loud_raises : forall orc cf w t e, distinct_names w -> In t (w_tasks w) -> end_loud orc cf w e ->
  exists w', check_termination orc cf (t_name t) w = (w', Raises e) /\ happened w w' [] /\ w_tasks w' = w_tasks w.
Proof. exact loud_raises. Qed.
Print Assumptions c32_loud_raises.

Theorem c32_check_interrupted_refuted : exists orc cf fuel w t u e, distinct_names w /\ distinct_runs w /\ In t (w_tasks w) /\
  t_term t = true /\ live_in w u /\
  snd (cycle_task orc cf fuel (t_name t) w) = Raises e /\ ~ stopped (fst (cycle_task orc cf fuel (t_name t) w)) u.
Proof. exact check_interrupted. Qed.
Print Assumptions c32_check_interrupted_refuted.

Theorem c32_request_lost_refuted : exists orc cf fuel w t u evs, distinct_names w /\ distinct_runs w /\ In t (w_tasks w) /\
  t_term t = true /\ live_in w u /\
  snd (cycle_task orc cf fuel (t_name t) w) = Returns tt /\ happened w (fst (cycle_task orc cf fuel (t_name t) w)) evs /\
  (forall m v, ~ In (EvTerminate m v) evs) /\
  ~ stopped (fst (cycle_task orc cf fuel (t_name t) w)) u /\
  forall t', In t' (w_tasks (fst (cycle_task orc cf fuel (t_name t) w))) -> t_term t' = false.
Proof. exact request_lost. Qed.
Print Assumptions c32_request_lost_refuted.

(** Threads are told to stop and go on until they look. *)
Example c32_met : let w := ex_ask 2 (ex_four 500 None) in
  let check r n w := check_termination (ex_cancel r ex_quiet) ex_config n w in
  distinct_names w /\ distinct_runs w /\
  (exists t, In t (w_tasks w) /\ t_name t = 2 /\ t_term t = true) /\
  snd (check (Ok false) 2 w) = Returns tt /\ ex_ended w (fst (check (Ok false) 2 w)) = [(2, 1%nat); (2, 3%nat)] /\
  ex_alive (fst (check (Ok false) 2 w)) = [0; 2; 1; 3]%nat /\
  end_holds (ex_cancel (Ok true) ex_quiet) ex_config w /\
  snd (check (Ok true) 1 w) = Returns tt /\ ex_ended w (fst (check (Ok true) 1 w)) = [(1, 0%nat); (1, 2%nat)] /\
  ex_alive (fst (check (Ok true) 1 w)) = [1; 3]%nat /\
  end_loud (ex_cancel (Err ValueError) ex_quiet) ex_config w ValueError /\
  end_holds (ex_cancel (Err ValueError) ex_quiet) (Config XProcess false 2 1800 false false false true) w.
Proof.
  split; [vm_compute; repeat constructor; cbn; intuition discriminate|].
  split; [vm_compute; repeat constructor; cbn; intuition discriminate|].
  split; [exists (nth 1 (w_tasks (ex_ask 2 (ex_four 500 None))) (ex_task (ex_cfg 0 XMain 0))); split; [vm_compute; right; now left|]; split; vm_compute; reflexivity|].
  do 3 (split; [vm_compute; reflexivity|]). split; [left; vm_compute; reflexivity|].
  do 3 (split; [vm_compute; reflexivity|]). split; [split; [vm_compute; reflexivity|now right]|].
  right. exists ValueError. split; [vm_compute; reflexivity|]. split; reflexivity.
Qed.
