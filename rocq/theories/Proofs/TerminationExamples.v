(** Concrete terminations for the examples beside the theorems, and where the
    code deviates. *)
From Coq Require Import Bool Arith Lia ZifyBool.
From Verif Require Import Model.Base Model.History Model.World Model.Run Model.Scheduler.
From Verif Require Import Spec.SchedulerSpec Proofs.StackProofs Proofs.TerminationProofs Proofs.SchedulerExamples.
Open Scope Z_scope.

(** A task that may have several runs *)
Definition ex_many (n : Z) (x : exec) (timeout : option Z) (permanent : bool) : tcfg :=
  TCfg n (Some x) (Some true) 0 false false permanent timeout false.
(** Two cycles start two runs each, which are busy; [d] later *)
Definition ex_enters (k : nat) : list move := [MEnter 0 good_script; MEnter 1 good_script; MEnter 2 good_script; MEnter 3 good_script].
Definition ex_after (d : Z) (ts : list task) : world :=
  let cycle := fun w => fst (run_cycle (ex_oracle ex_enters) ex_config 20 w) in
  set_clock (1000 + 2 * d) (cycle (set_clock (1000 + d) (cycle (ex_world 3 ts)))).
(** Two asynchronous runs of task 1 and two threads of task 2 *)
Definition ex_four (d : Z) (timeout : option Z) : world :=
  ex_after d [ex_task (ex_many 1 XAsync timeout false); ex_task (ex_many 2 XThread None true)].
Definition ex_first (w : world) : task := hd (ex_task (ex_cfg 0 XMain 0)) (w_tasks w).
Definition ex_ask (n : Z) (w : world) : world := on_task n (with_term true) w.
Definition ex_ended (w w' : world) : list (Z * nat) :=
  rev (flat_map (fun e => match e with EvTerminate n u => [(n, u)] | _ => [] end)
         (firstn (length (w_trace w') - length (w_trace w)) (w_trace w'))).
Definition ex_alive (w : world) : list nat := map rn_uid (filter live (tracked w)).
(** The end condition holds, or fails *)
Definition ex_end (r : result bool) (f : nat -> list move) : oracle :=
  Oracle f (fun _ _ _ => Ok false) (fun _ => r) (fun _ => Ok false) (fun _ => true)
    (fun _ => None) (fun _ => None) (fun _ => true) (fun k => Ok (Z.of_nat k)) (fun _ => good_script) (fun _ => None).
(** When the runs get their cancellation, they end with it *)
Definition cancelled_script : script := Script None (Some CancelledError) 7 None None None None None.
Definition ex_cancel (r : result bool) (f : nat -> list move) : oracle :=
  Oracle f (fun _ _ _ => Ok false) (fun _ => r) (fun _ => Ok false) (fun _ => true)
    (fun _ => None) (fun _ => None) (fun _ => true) (fun k => Ok (Z.of_nat k)) (fun _ => cancelled_script) (fun _ => None).

(** A timeout of zero is as if none was given. *)
Lemma zero_timeout_ignored : exists orc cf w t r evs, distinct_names w /\ distinct_runs w /\ In t (w_tasks w) /\
  ~ end_holds orc cf w /\ t_term t = false /\ tc_permanent (t_cfg t) = false /\ In r (t_stack t) /\ live r = true /\
  tc_timeout (t_cfg t) = Some 0 /\ late cf w t r /\
  snd (check_termination orc cf (t_name t) w) = Returns tt /\
  happened w (fst (check_termination orc cf (t_name t) w)) evs /\ (forall m u, ~ In (EvTerminate m u) evs) /\
  ~ stopped (fst (check_termination orc cf (t_name t) w)) (rn_uid r).
Proof.
  set (w := ex_four 500 (Some 0)). set (t := ex_first w).
  exists (ex_cancel (Ok false) ex_quiet), ex_config, w, t, (Run 0 (hd None (map rn_id (t_stack t))) 1000 XAsync Busy false false), [].
  split; [vm_compute; repeat constructor; cbn; intuition discriminate|]. split; [vm_compute; repeat constructor; cbn; intuition discriminate|].
  split; [vm_compute; now left|]. split; [intros [H|(e & H & _)]; vm_compute in H; discriminate H|]. split; [vm_compute; reflexivity|]. split; [vm_compute; reflexivity|].
  split; [vm_compute; now left|]. split; [vm_compute; reflexivity|]. split; [vm_compute; reflexivity|]. split; [vm_compute; reflexivity|].
  split; [vm_compute; reflexivity|]. split; [vm_compute; reflexivity|]. split; [intros m u []|].
  intros H. specialize (H (Run 0 (hd None (map rn_id (t_stack t))) 1000 XAsync Busy false false)).
  destruct H as [H|[H _]]; [vm_compute; now left|reflexivity|vm_compute in H; discriminate H|vm_compute in H; discriminate H].
Qed.

(** A run whose code ends with an error while the task is being terminated:
    the error stops the check, and the runs after it go on. *)
Definition failing_script : script := Script None None 7 None None None (Some ValueError) None.
Definition ex_fails (k : nat) : list move := [MLeave 0 failing_script].
Lemma check_interrupted : exists orc cf fuel w t u e, distinct_names w /\ distinct_runs w /\ In t (w_tasks w) /\
  t_term t = true /\ live_in w u /\
  snd (cycle_task orc cf fuel (t_name t) w) = Raises e /\ ~ stopped (fst (cycle_task orc cf fuel (t_name t) w)) u.
Proof.
  set (w := ex_ask 1 (ex_four 500 None)). set (t := ex_first w).
  exists (ex_cancel (Ok false) (fun k => if Nat.leb k (4 + w_tick w) then [] else ex_fails k)), ex_config, 20%nat, w, t, 2%nat, ValueError.
  split; [vm_compute; repeat constructor; cbn; intuition discriminate|]. split; [vm_compute; repeat constructor; cbn; intuition discriminate|].
  split; [vm_compute; now left|]. split; [vm_compute; reflexivity|].
  set (r := Run 2 (nth 1 (map rn_id (t_stack t)) None) 1500 XAsync Busy false false).
  split; [exists r; split; [vm_compute; right; now left|split; reflexivity]|]. split; [vm_compute; reflexivity|].
  intros H. specialize (H r). destruct H as [H|[H _]]; [vm_compute; right; now left|reflexivity|vm_compute in H; discriminate H|vm_compute in H; discriminate H].
Qed.

(** A termination that was asked for is forgotten when another run of the task
    ends as terminated before the check. *)
Definition stopping_script : script := Script None (Some TaskTermination) 7 None None None None None.
Lemma request_lost : exists orc cf fuel w t u evs, distinct_names w /\ distinct_runs w /\ In t (w_tasks w) /\
  t_term t = true /\ live_in w u /\
  snd (cycle_task orc cf fuel (t_name t) w) = Returns tt /\ happened w (fst (cycle_task orc cf fuel (t_name t) w)) evs /\
  (forall m v, ~ In (EvTerminate m v) evs) /\
  ~ stopped (fst (cycle_task orc cf fuel (t_name t) w)) u /\
  forall t', In t' (w_tasks (fst (cycle_task orc cf fuel (t_name t) w))) -> t_term t' = false.
Proof.
  set (w := ex_ask 1 (ex_four 500 None)). set (t := ex_first w).
  set (orc := ex_cancel (Ok false) (fun k => [MLeave 0 stopping_script])).
  set (w' := fst (cycle_task orc ex_config 20 (t_name t) w)).
  exists orc, ex_config, 20%nat, w, t, 2%nat, (rev (firstn (length (w_trace w') - length (w_trace w)) (w_trace w'))).
  split; [vm_compute; repeat constructor; cbn; intuition discriminate|]. split; [vm_compute; repeat constructor; cbn; intuition discriminate|].
  split; [vm_compute; now left|]. split; [vm_compute; reflexivity|].
  set (r := Run 2 (nth 1 (map rn_id (t_stack t)) None) 1500 XAsync Busy false false).
  split; [exists r; split; [vm_compute; right; now left|split; reflexivity]|]. split; [vm_compute; reflexivity|].
  split; [vm_compute; reflexivity|].
  split; [intros m v; vm_compute; intuition discriminate|]. split.
  - intros H. specialize (H r). destruct H as [H|[H _]]; [vm_compute; now left|reflexivity|vm_compute in H; discriminate H|vm_compute in H; discriminate H].
  - intros t'. vm_compute. intros [<-|[<-|[]]]; reflexivity.
Qed.
