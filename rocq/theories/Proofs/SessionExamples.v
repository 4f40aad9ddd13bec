(** Where session.run deviates. *)
From Coq Require Import Bool Arith Lia ZifyBool.
From Verif Require Import Model.Base Model.History Model.World Model.Run Model.Scheduler.
From Verif Require Import Spec.SchedulerSpec Proofs.SchedulerExamples.
Open Scope Z_scope.

(** Three tasks, the second one disabled, the third with a request of its own *)
Definition ex_chosen (b : list params) : world :=
  ex_world 5 [ex_task (ex_cfg 1 XMain 0); ex_off (ex_cfg 2 XMain 5) []; Task (ex_cfg 3 XMain 0) fresh_state b false false []].

Definition ex_finish (k : nat) : list move :=
  [MEnter 0 good_script; MEnter 1 good_script; MLeave 0 good_script; MLeave 1 good_script].

(** A task that was not named, but has a request waiting, is run. *)
Lemma unnamed_requested : exists orc cf fuel names w w' evs t u, distinct_names w /\
  (forall n p, never orc (MRequest n p)) /\ session_run orc cf fuel names None false w = (w', Returns tt) /\ happened w w' evs /\
  In t (w_tasks w) /\ ~ In (t_name t) names /\ In (EvStart (t_name t) u) evs.
Proof.
  set (w := ex_chosen [ex_params 7]). set (orc := ex_oracle ex_quiet).
  set (w' := fst (session_run orc ex_config 40 [1] None false w)).
  exists orc, ex_config, 40%nat, [1], w, w', (rev (w_trace w')), (Task (ex_cfg 3 XMain 0) fresh_state [ex_params 7] false false []), 1%nat.
  split; [repeat constructor; cbn; intuition discriminate|]. split; [intros n p k []|]. split; [vm_compute; reflexivity|].
  split; [unfold happened; rewrite rev_involutive; symmetry; apply app_nil_r|]. split; [vm_compute; intuition|]. split; [cbn; intuition discriminate|].
  vm_compute. intuition.
Qed.

(** Two process tasks in a session that allows one process; the process ends
    after the one cycle. *)
Definition ex_single : config := Config XProcess false 1 1800 false false false false.
Definition ex_pair : world := ex_world 5 [ex_task (ex_cfg 1 XProcess 0); ex_task (ex_cfg 2 XProcess 0)].
Definition ex_slow (k : nat) : list move := if Nat.leb k 60 then [] else [MProcess 0 good_script].

(** A named task that found no free process does not run; its request stays. *)
Lemma named_process : exists orc cf fuel names w w' evs t, distinct_names w /\ (forall k m, In m (o_env orc k) -> exists u s, m = MProcess u s) /\
  session_run orc cf fuel names None false w = (w', Returns tt) /\ happened w w' evs /\ In EvCycle evs /\ w_cycles w' = 1%nat /\
  In t (w_tasks w) /\ In (t_name t) names /\ cyclic_task t /\ live_runs t = [] /\
  (forall u, ~ In (EvStart (t_name t) u) evs) /\ exists t', In t' (w_tasks w') /\ t_name t' = t_name t /\ requested t'.
Proof.
  set (orc := ex_oracle ex_slow).
  assert (S : session_run orc ex_single 60 [1; 2] None false ex_pair = (fst (session_run orc ex_single 60 [1; 2] None false ex_pair), Returns tt)) by (vm_compute; reflexivity).
  set (w' := fst (session_run orc ex_single 60 [1; 2] None false ex_pair)) in *.
  assert (T : existsb (fun e => match e with EvCycle => true | _ => false end) (rev (w_trace w')) = true) by (vm_compute; reflexivity).
  assert (N : existsb (fun e => match e with EvStart 2 _ => true | _ => false end) (rev (w_trace w')) = false) by (vm_compute; reflexivity).
  assert (C : w_cycles w' = 1%nat) by (vm_compute; reflexivity).
  assert (B : map t_batches (w_tasks w') = [[]; [[]]] /\ map t_name (w_tasks w') = [1; 2]) by (split; vm_compute; reflexivity).
  clearbody w'. exists orc, ex_single, 60%nat, [1; 2], ex_pair, w', (rev (w_trace w')), (ex_task (ex_cfg 2 XProcess 0)).
  split; [repeat constructor; cbn; intuition discriminate|].
  split; [intros k m; cbn; unfold ex_slow; destruct (Nat.leb k 60); [intros []|intros [<- |[]]; eauto]|].
  split; [exact S|]. split; [unfold happened; rewrite rev_involutive; symmetry; apply app_nil_r|].
  split; [apply existsb_exists in T as (e & I & E); destruct e; discriminate E || exact I|].
  split; [exact C|]. split; [right; now left|]. split; [right; now left|]. split; [now split|]. split; [reflexivity|]. split.
  - intros u Hu. assert (X : existsb (fun e => match e with EvStart 2 _ => true | _ => false end) (rev (w_trace w')) = true); [|congruence].
    apply existsb_exists. exists (EvStart 2 u). split; [exact Hu|reflexivity].
  - destruct B as [B1 B2]. destruct (w_tasks w') as [|t1 [|t2 l]]; try discriminate B1. injection B1 as _ B1 _. injection B2 as _ B2 _.
    exists t2. split; [right; now left|]. split; [exact B2|]. unfold requested. rewrite B1. discriminate.
Qed.

(** A name no task has is passed over in silence. *)
Lemma unknown_name : exists orc cf fuel names w w', distinct_names w /\ w_tasks w <> [] /\ names <> [] /\
  (forall n, In n names -> ~ In n (map t_name (w_tasks w))) /\
  session_run orc cf fuel names None false w = (w', Returns tt) /\ w_cycles w' = 1%nat /\ ex_started w' = [].
Proof.
  set (orc := ex_oracle ex_quiet). exists orc, ex_config, 40%nat, [4], (ex_chosen []), (fst (session_run orc ex_config 40 [4] None false (ex_chosen []))).
  split; [repeat constructor; cbn; intuition discriminate|]. split; [discriminate|]. split; [discriminate|].
  split; [intros n [<- |[]]; cbn; intuition discriminate|]. split; [vm_compute; reflexivity|]. split; vm_compute; reflexivity.
Qed.
