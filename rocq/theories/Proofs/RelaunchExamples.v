(** Concrete restarts for the examples beside the theorems, and where the code
    deviates. *)
From Coq Require Import Bool Arith Lia ZifyBool.
From Verif Require Import Model.Base Model.History Model.World Model.Run Model.Scheduler Model.Relaunch.
From Verif Require Import Spec.SchedulerSpec Spec.RelaunchSpec Proofs.SchedulerExamples Proofs.ShutdownExamples.
Open Scope Z_scope.

(** One run at a time of a task in the main thread; somebody restarts at the [k0]-th question *)
Definition ex_asks (k0 k : nat) : list move := if Nat.eqb k k0 then [MRestart] else [].
Definition ex_main (n : nat) : world := ex_world n [ex_task (ex_cfg 1 XMain 0)].
Definition restart_script : script := Script None (Some SchedulerRestart) 0 None None None None None.
(** The code of runs in the main thread raises SchedulerRestart *)
Definition ex_raising : oracle :=
  Oracle ex_quiet (fun _ _ _ => Ok true) (fun _ => Ok false) (fun _ => Ok false) (fun _ => true)
    (fun _ => None) (fun _ => None) (fun _ => true) (fun k => Ok (Z.of_nat k)) (fun _ => restart_script) (fun _ => None).
(** An asynchronous run ends by raising SchedulerRestart *)
Definition ex_async_raises (k : nat) : list move := [MEnter 0 restart_script; MLeave 0 restart_script].

(** Requested during the last cycle of the session *)
Lemma request_lost : exists orc cf fuel n w w1 w',
  (forall f, never orc (MShutdown f)) /\
  (startup orc cf fuel ;; main_loop orc cf fuel) (set_flags true false false (w_force w) w) = (w1, Returns tt) /\
  w_restart w1 = true /\ (exists k, In MRestart (o_env orc k)) /\
  serve_restart orc cf Launch fuel n w = (w', Returns Stopped) /\ w_restart w' = true /\
  w_restart (set_flags true false false (w_force w') w') = false.
Proof.
  set (orc := ex_oracle (ex_asks 9)). set (w := ex_main 1).
  exists orc, ex_config, 30%nat, 3%nat, w, (fst ((startup orc ex_config 30 ;; main_loop orc ex_config 30) (set_flags true false false (w_force w) w))),
    (fst (serve_restart orc ex_config Launch 30 3 w)).
  split. { intros f k. unfold orc, ex_oracle, ex_asks. cbn. destruct (Nat.eqb k 9); [|intros []]. intros [H|[]]. discriminate H. }
  split; [vm_compute; reflexivity|]. split; [vm_compute; reflexivity|]. split; [exists 9%nat; now left|].
  split; [vm_compute; reflexivity|]. split; vm_compute; reflexivity.
Qed.
(** Raised in a task that is executed in another way *)
Lemma async_raise_lost : exists orc cf fuel n w w' c,
  (forall k, In (MLeave 0 restart_script) (o_env orc k)) /\ s_exec restart_script = Some SchedulerRestart /\
  serve_restart orc cf Launch fuel n w = (w', Returns Stopped) /\ In (Rec 1 ASuccess c None) (w_log w') /\ ~ restart_called orc cf fuel w.
Proof.
  exists (ex_oracle ex_async_raises), ex_config, 40%nat, 3%nat, ex_one, (fst (serve_restart (ex_oracle ex_async_raises) ex_config Launch 40 3 ex_one)), 1000.
  split; [intros k; right; now left|]. split; [reflexivity|]. split; [vm_compute; reflexivity|]. split; [vm_compute; tauto|].
  unfold restart_called. vm_compute. discriminate.
Qed.
