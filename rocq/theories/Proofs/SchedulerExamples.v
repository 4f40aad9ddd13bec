(** Concrete executions of the scheduler for the examples beside the theorems. *)
From Coq Require Import Bool Arith Lia ZifyBool.
From Verif Require Import Model.Base Model.History Model.World Model.Run Model.Scheduler.
From Verif Require Import Spec.SchedulerSpec.
Open Scope Z_scope.

Definition good_script : script := Script None None 7 None None None None None.
Definition ex_cfg (n : Z) (x : exec) (pr : Z) : tcfg := TCfg n (Some x) None pr false false false None false.
Definition ex_task (c : tcfg) : task := Task c fresh_state [] false false [].
Definition ex_config : config := Config XProcess false 2 1800 false false false false.
(** [n] cycles from the start *)
Definition ex_world (n : nat) (ts : list task) : world :=
  World 1000 [] ts [] [] [] true false false false (ShutCycles n) 0 0 0 [].
(** Conditions hold, logs are written, nothing fails; the outside does [f k]
    at the [k]-th question. *)
Definition ex_oracle (f : nat -> list move) : oracle :=
  Oracle f (fun _ _ _ => Ok true) (fun _ => Ok false) (fun _ => Ok false) (fun _ => true)
    (fun _ => None) (fun _ => None) (fun _ => true) (fun k => Ok (Z.of_nat k)) (fun _ => good_script) (fun _ => None).

Definition ex_started (w : world) : list (Z * nat) :=
  rev (flat_map (fun e => match e with EvStart n u => [(n, u)] | _ => [] end) (w_trace w)).
(** The greatest number of live runs of one task, of live process runs over all
    tasks, seen in the trace *)
Definition ex_max_live (w : world) : nat :=
  fold_right (fun e m => match e with EvState ts => fold_right (fun t m => Nat.max (length (live_runs t)) m) m ts | _ => m end) 0%nat (w_trace w).
Definition ex_max_procs (w : world) : nat :=
  fold_right (fun e m => match e with EvState ts => Nat.max (length (live_process_runs ts)) m | _ => m end) 0%nat (w_trace w).

(** Three process tasks in a session that allows two processes: over three
    cycles the first two start and the third never does; the processes end
    late. *)
Definition ex_three : world :=
  ex_world 3 [ex_task (ex_cfg 1 XProcess 0); ex_task (ex_cfg 2 XProcess 0); ex_task (ex_cfg 3 XProcess 0)].
Definition ex_late (k : nat) : list move := if Nat.leb k 120 then [] else [MProcess 0 good_script; MProcess 1 good_script].

(** What happened since the beginning, without the states *)
Definition ex_events (w : world) : list event :=
  filter (fun e => match e with EvState _ => false | _ => true end) (rev (w_trace w)).
(** Three tasks of different priorities *)
Definition ex_ranked : world :=
  ex_world 3 [ex_task (ex_cfg 1 XAsync 0); ex_task (ex_cfg 2 XAsync 5); ex_task (ex_cfg 3 XAsync 2)].
(** A disabled task, alone and with two manual runs waiting *)
Definition ex_off (c : tcfg) (b : list params) : task := Task c fresh_state b true false [].
Definition ex_disabled (b : list params) : world :=
  ex_world 3 [ex_task (ex_cfg 1 XMain 0); ex_off (ex_cfg 2 XMain 5) b].
(** A startup task, a shutdown task and an ordinary one *)
Definition ex_special (n : Z) (up down : bool) : tcfg := TCfg n (Some XAsync) None 0 up down false None true.
Definition ex_phases : world :=
  ex_world 2 [ex_task (ex_special 1 true false); ex_task (ex_special 2 false true); ex_task (ex_cfg 3 XMain 0)].
(** On hold from the start *)
Definition ex_held (w : world) : world := set_flags false (w_shutdown w) (w_restart w) (w_force w) w.
Definition ex_quiet (k : nat) : list move := [].
Definition ex_params (k : Z) : params := [(k, 1)].

(** Where the scheduler deviates *)
Lemma special_request_ignored : exists orc cf fuel w t,
  distinct_names w /\ w_enabled w = true /\ never orc (MHold true) /\ In t (w_tasks w) /\ requested t /\ may_start cf t /\
  ~ executes cf t XProcess /\ snd (run_cycle orc cf fuel w) = Returns tt /\
  forall u, ~ In (EvStart (t_name t) u) (rev (w_trace (fst (run_cycle orc cf fuel w)))).
Proof.
  set (t := Task (ex_special 1 true false) fresh_state [ex_params 7] false false []).
  exists (ex_oracle ex_quiet), ex_config, 20%nat, (ex_world 1 [t]), t.
  split; [repeat constructor; intros []|]. split; [reflexivity|]. split; [intros k []|]. split; [now left|].
  split; [discriminate|]. split; [right; right; reflexivity|]. split; [discriminate|]. split; [vm_compute; reflexivity|].
  intros u. vm_compute. intuition discriminate.
Qed.
Lemma held_cycle_counted : exists orc cf fuel w,
  w_enabled w = false /\ never orc (MHold false) /\ snd (run_cycle orc cf fuel w) = Returns tt /\
  w_cycles (fst (run_cycle orc cf fuel w)) = S (w_cycles w).
Proof.
  exists (ex_oracle ex_quiet), ex_config, 20%nat, (ex_held ex_ranked).
  split; [reflexivity|]. split; [intros k []|]. split; vm_compute; reflexivity.
Qed.
Lemma held_shutdown_starts : exists orc cf fuel w n u,
  w_enabled w = false /\ never orc (MHold false) /\ snd (run_shutdown_tasks orc cf fuel w) = Returns tt /\ w_trace w = [] /\
  In (EvStart n u) (w_trace (fst (run_shutdown_tasks orc cf fuel w))).
Proof.
  exists (ex_oracle ex_quiet), ex_config, 20%nat, (ex_held ex_phases), 2, 0%nat.
  split; [reflexivity|]. split; [intros k []|]. split; [vm_compute; reflexivity|]. split; [reflexivity|]. vm_compute. intuition.
Qed.
