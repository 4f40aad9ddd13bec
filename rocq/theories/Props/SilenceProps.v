(** C46: start conditions that raise. *)
From Verif Require Import Model.Base Model.History Model.World Model.Run Model.Scheduler.
From Verif Require Import Spec.SchedulerSpec Proofs.SilenceProofs Proofs.SchedulerExamples.
Open Scope Z_scope.

(** Silenced: everything happens as if the failing conditions did not hold. *)
Theorem c46_silenced_is_false : forall orc cf, cf_silence_cond cf = true ->
  forall fuel w, serve orc cf fuel w = serve (hushed orc) cf fuel w.
Proof. exact hush_serve. Qed.
Print Assumptions c46_silenced_is_false.

(** Not silenced: where the failing answer is asked for at all, it leaves the
    cycle, *)
Theorem c46_loud_leaves_cycle : forall orc cf fuel w k e b, cf_silence_cond cf = false ->
  run_cycle (answering orc k (Err e)) cf fuel w = run_cycle (answering orc k (Ok b)) cf fuel w \/
  snd (run_cycle (answering orc k (Err e)) cf fuel w) = Raises e.
Proof. exact loud_cycle_spec. Qed.
Print Assumptions c46_loud_leaves_cycle.

(** and the scheduler does not end normally. *)
Theorem c46_loud_leaves_scheduler : forall orc cf fuel w k e b, cf_silence_cond cf = false ->
  e <> SchedulerExit -> e <> SchedulerRestart ->
  serve (answering orc k (Err e)) cf fuel w = serve (answering orc k (Ok b)) cf fuel w \/
  snd (serve (answering orc k (Err e)) cf fuel w) <> Returns tt.
Proof. exact loud_serve_spec. Qed.
Print Assumptions c46_loud_leaves_scheduler.

(** Question 18 is the start condition of the second of three tasks: when it
    raises, the third one is started all the same, or not. *)
Example c46_met :
  let loud := answering (ex_oracle ex_quiet) 18 (Err ValueError) in
  let silent := Config XAsync false 2 1800 false false false true in
  cf_silence_cond silent = true /\ cf_silence_cond ex_config = false /\
  ex_started (fst (run_cycle (ex_oracle ex_quiet) silent 20 ex_ranked)) = [(2, 0%nat); (3, 1%nat); (1, 2%nat)] /\
  snd (run_cycle loud silent 20 ex_ranked) = Returns tt /\
  ex_started (fst (run_cycle loud silent 20 ex_ranked)) = [(2, 0%nat); (1, 1%nat)] /\
  snd (run_cycle loud ex_config 20 ex_ranked) = Raises ValueError /\
  ex_started (fst (run_cycle loud ex_config 20 ex_ranked)) = [(2, 0%nat)].
Proof. repeat split; vm_compute; reflexivity. Qed.
