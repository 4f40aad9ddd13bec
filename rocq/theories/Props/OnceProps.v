(** C75: a task scheduled once a period is run once a period in a served session. *)
From Coq Require Import ZArith List.
From Verif Require Import Model.Base Model.Interval Model.Calendar Model.Anchored Model.Period Model.Condition Model.History.
From Verif Require Import Spec.HistorySpec Spec.SchedulerSpec Model.World Model.Run Model.Scheduler.
From Verif Require Import Spec.OnceSpec Spec.DoneSpec Proofs.SchedulerExamples Proofs.OnceServed Proofs.OnceExamples Proofs.DoneServed.
Import ListNotations.
Open Scope Z_scope.

(** Whatever else happens in the session: while it is served, a task whose
    condition requires that it has not run in the period is recorded as run at
    most once in each window of the period. *)
Theorem c75_once : forall orc cf me time fuel w,
  time_goes_on orc time -> w_clock w <= time (w_tick w) -> by_condition orc me w -> undisturbed orc cf me w -> known_history me w ->
  forall force n p s e, requires orc me (gate_runnable me force n p) -> window p s e ->
  every_new_run me (w_log w) (w_log (fst (serve orc cf fuel w)))
    (fun old r => s <= r_created r < e -> forall x, In x old -> run_record me x -> r_created x < s).
Proof. exact once_served. Qed.
Print Assumptions c75_once.

Example c75_once_case :
  (time_goes_on (ex_served ex_gate_daily) (ex_time ex_twenty) /\ w_clock ex_pair <= ex_time ex_twenty (w_tick ex_pair) /\
   by_condition (ex_served ex_gate_daily) 1 ex_pair /\ undisturbed (ex_served ex_gate_daily) ex_patient 1 ex_pair /\ known_history 1 ex_pair /\
   requires (ex_served ex_gate_daily) 1 (gate_runnable 1 false 5 ex_day)) /\
  (forall k, window ex_day (us_day * k) (us_day * k + us_day)) /\
  snd (serve (ex_served ex_gate_daily) ex_patient 60 ex_pair) = Returns tt /\
  ex_hours (ex_runs 1 (fst (serve (ex_served ex_gate_daily) ex_patient 60 ex_pair))) = [5; 27; 49; 82] /\
  ex_hours (ex_runs 2 (fst (serve (ex_served ex_gate_daily) ex_patient 60 ex_pair))) = [10; 20; 32; 42; 54; 64; 74; 86].
Proof.
  split; [apply ex_pair_served|]. split; [exact ex_day_window|]. split; [vm_compute; reflexivity|]. split; vm_compute; reflexivity.
Qed.

(** every(X): runs are recorded more than X apart. *)
Theorem c75_every : forall orc cf me time fuel w,
  time_goes_on orc time -> w_clock w <= time (w_tick w) -> by_condition orc me w -> undisturbed orc cf me w -> known_history me w ->
  forall force n past, requires orc me (gate_every me force w_started n past) ->
  every_new_run me (w_log w) (w_log (fst (serve orc cf fuel w)))
    (fun old r => forall x, In x old -> run_record me x -> r_created x + Z.abs past < r_created r).
Proof. exact every_served. Qed.
Print Assumptions c75_every.

Example c75_every_case :
  (time_goes_on (ex_served ex_gate_every) (ex_time ex_twenty) /\ w_clock ex_pair <= ex_time ex_twenty (w_tick ex_pair) /\
   by_condition (ex_served ex_gate_every) 1 ex_pair /\ undisturbed (ex_served ex_gate_every) ex_patient 1 ex_pair /\ known_history 1 ex_pair /\
   requires (ex_served ex_gate_every) 1 (gate_every 1 true w_started 5 (20 * us_hour))) /\
  snd (serve (ex_served ex_gate_every) ex_patient 60 ex_pair) = Returns tt /\
  ex_hours (ex_runs 1 (fst (serve (ex_served ex_gate_every) ex_patient 60 ex_pair))) = [5; 27; 49; 71].
Proof. split; [apply ex_pair_served|]. split; vm_compute; reflexivity. Qed.

(** A task that is run after another: each run comes after an outcome of the
    other that no earlier run has used. *)
Theorem c75_depend : forall orc cf me time fuel w,
  time_goes_on orc time -> w_clock w <= time (w_tick w) -> by_condition orc me w -> undisturbed orc cf me w -> known_history me w ->
  forall dep acts, requires orc me (gate_depend me dep acts) ->
  every_new_run me (w_log w) (w_log (fst (serve orc cf fuel w)))
    (fun old r => exists o, In o old /\ about dep acts o /\ forall x, In x old -> run_record me x -> r_created x < r_created o).
Proof. exact depend_served. Qed.
Print Assumptions c75_depend.

Example c75_depend_case :
  (time_goes_on (ex_served ex_gate_after) (ex_time ex_twenty) /\ w_clock ex_pair <= ex_time ex_twenty (w_tick ex_pair) /\
   by_condition (ex_served ex_gate_after) 1 ex_pair /\ undisturbed (ex_served ex_gate_after) ex_patient 1 ex_pair /\ known_history 1 ex_pair /\
   requires (ex_served ex_gate_after) 1 (gate_depend 1 2 dep_success)) /\
  snd (serve (ex_served ex_gate_after) ex_patient 60 ex_pair) = Returns tt /\
  ex_hours (ex_runs 2 (fst (serve (ex_served ex_gate_after) ex_patient 60 ex_pair))) = [8; 27; 54; 73] /\
  ex_hours (ex_runs 1 (fst (serve (ex_served ex_gate_after) ex_patient 60 ex_pair))) = [16; 35; 61].
Proof. split; [apply ex_pair_served|]. split; [vm_compute; reflexivity|]. split; vm_compute; reflexivity. Qed.

(** A coroutine or thread that is to succeed once in the period (daily and the
    like): once it has succeeded, been inactive or been terminated in a window of
    the period it is not run again in it, nor after more failures in the window
    than there are retries. *)
Theorem c75_executed : forall orc cf me time fuel w,
  time_goes_on orc time -> w_clock w <= time (w_tick w) -> by_condition orc me w -> one_at_a_time_here cf me w -> complete_history me w ->
  forall force retries n p s e, requires orc me (gate_executable me force retries n p) -> window p s e ->
  every_new_run me (w_log w) (w_log (fst (serve orc cf fuel w)))
    (fun old r => s <= r_created r < e ->
       (forall x, In x old -> about me [ASuccess; AInaction; ATerminate] x -> r_created x < s) /\
       times old me [AFail] s (r_created r) <= match retries with None => 0 | Some n => n end).
Proof. exact executed_served. Qed.
Print Assumptions c75_executed.

(** In the case shown the first run of each task fails and both may be retried
    once a day: a coroutine and a thread, from one day to the next. *)
Example c75_executed_case :
  (forall me, me = 1 \/ me = 2 ->
   time_goes_on (ex_here ex_gate_retry) (ex_time ex_twenty) /\ w_clock ex_both <= ex_time ex_twenty (w_tick ex_both) /\
   by_condition (ex_here ex_gate_retry) me ex_both /\ one_at_a_time_here ex_patient me ex_both /\ complete_history me ex_both /\
   requires (ex_here ex_gate_retry) me (gate_executable me false (Some 1) 5 ex_day)) /\
  (forall k, window ex_day (us_day * k) (us_day * k + us_day)) /\
  snd (serve (ex_here ex_gate_retry) ex_patient 60 ex_both) = Returns tt /\
  ex_story 1 (fst (serve (ex_here ex_gate_retry) ex_patient 60 ex_both)) =
    [(ARun, 5); (AFail, 7); (ARun, 16); (ASuccess, 17); (ARun, 27); (ASuccess, 28); (ARun, 52); (ASuccess, 53)] /\
  ex_story 2 (fst (serve (ex_here ex_gate_retry) ex_patient 60 ex_both)) =
    [(ARun, 10); (AFail, 12); (ARun, 20); (ASuccess, 22); (ARun, 31); (ASuccess, 33); (ARun, 56); (ASuccess, 58); (ARun, 73); (ASuccess, 75)].
Proof.
  split; [exact (ex_both_served ex_gate_retry)|]. split; [exact ex_day_window|]. split; [vm_compute; reflexivity|]. split; vm_compute; reflexivity.
Qed.

(** every(X, based on an outcome): a coroutine or thread is run more than X
    after the outcomes it is based on. *)
Theorem c75_every_based : forall orc cf me time fuel w,
  time_goes_on orc time -> w_clock w <= time (w_tick w) -> by_condition orc me w -> one_at_a_time_here cf me w -> complete_history me w ->
  forall force a n past, requires orc me (gate_every me force (WOne a) n past) ->
  every_new_run me (w_log w) (w_log (fst (serve orc cf fuel w)))
    (fun old r => forall x, In x old -> about me [a] x -> r_created x + Z.abs past < r_created r).
Proof. exact every_based_served. Qed.
Print Assumptions c75_every_based.

Example c75_every_based_case :
  (time_goes_on (ex_here ex_gate_succeeded) (ex_time ex_twenty) /\ w_clock ex_both <= ex_time ex_twenty (w_tick ex_both) /\
   by_condition (ex_here ex_gate_succeeded) 1 ex_both /\ one_at_a_time_here ex_patient 1 ex_both /\ complete_history 1 ex_both /\
   requires (ex_here ex_gate_succeeded) 1 (gate_every 1 true (WOne ASuccess) 5 (20 * us_hour))) /\
  snd (serve (ex_here ex_gate_succeeded) ex_patient 60 ex_both) = Returns tt /\
  ex_story 1 (fst (serve (ex_here ex_gate_succeeded) ex_patient 60 ex_both)) =
    [(ARun, 5); (AFail, 7); (ARun, 16); (ASuccess, 17); (ARun, 41); (ASuccess, 43); (ARun, 67); (ASuccess, 68)].
Proof. split; [exact (ex_both_served ex_gate_succeeded 1 (or_introl eq_refl))|]. split; vm_compute; reflexivity. Qed.

(** A condition or else retry(n): a run that is not the first in its window
    follows at most [n] failures in a row.  When the status is read from the log
    it follows at least one: a success is not repeated.  (The cached status is a
    failure also when a record could not be written.  No record is dated before
    1970.) *)
Theorem c75_retry : forall orc cf me time fuel w,
  time_goes_on orc time -> w_clock w <= time (w_tick w) -> by_condition orc me w -> one_at_a_time_here cf me w -> complete_history me w ->
  forall force k p s e n, 0 < n -> after_epoch (w_log (fst (serve orc cf fuel w))) me ->
  requires orc me (gate_or_retry (gate_runnable me force k p) me force n) -> window p s e ->
  every_new_run me (w_log w) (w_log (fst (serve orc cf fuel w)))
    (fun old r => s <= r_created r < e -> (forall x, In x old -> run_record me x -> r_created x < s) \/
      failures_in_a_row old me <= n /\ (force = true -> 0 < failures_in_a_row old me)).
Proof. exact retried_served. Qed.
Print Assumptions c75_retry.

(** The first two runs of each task fail; one retry is allowed. *)
Example c75_retry_case :
  (forall me, me = 1 \/ me = 2 ->
   time_goes_on ex_twice ex_modern /\ w_clock ex_both <= ex_modern (w_tick ex_both) /\
   by_condition ex_twice me ex_both /\ one_at_a_time_here ex_patient me ex_both /\ complete_history me ex_both /\
   requires ex_twice me (gate_or_retry (gate_runnable me true 5 ex_day) me true 1)) /\
  (forall me, after_epoch (w_log (fst (serve ex_twice ex_patient 60 ex_both))) me) /\
  (forall k, window ex_day (us_day * k) (us_day * k + us_day)) /\
  snd (serve ex_twice ex_patient 60 ex_both) = Returns tt /\
  ex_story_modern 1 (fst (serve ex_twice ex_patient 60 ex_both)) =
    [(ARun, 5); (AFail, 7); (ARun, 16); (AFail, 17); (ARun, 27); (ASuccess, 28); (ARun, 52); (ASuccess, 53)].
Proof.
  split; [exact ex_twice_served|]. split; [intros me; apply ex_modern_epoch; vm_compute; reflexivity|]. split; [exact ex_day_window|]. split; vm_compute; reflexivity.
Qed.

(** But a daily process may be run again on the day it succeeded. *)
Theorem c75_success_refuted : exists orc cf me time fuel n p s e w x r,
  time_goes_on orc time /\ w_clock w <= time (w_tick w) /\ by_condition orc me w /\ undisturbed orc cf me w /\ known_history me w /\
  requires orc me (gate_executable me false None n p) /\ window p s e /\
  snd (serve orc cf fuel w) = Returns tt /\
  (exists l1 l2 l3, w_log (fst (serve orc cf fuel w)) = l1 ++ x :: l2 ++ r :: l3) /\
  about me [ASuccess] x /\ run_record me r /\ s <= r_created x <= r_created r /\ r_created r < e.
Proof. exact success_overlooked. Qed.
Print Assumptions c75_success_refuted.

(** And one run in the scheduler's thread is recorded twice if a hook fails
    after it. *)
Theorem c75_recorded_once_refuted : exists orc cf me time fuel n p s e w x r,
  time_goes_on orc time /\ w_clock w <= time (w_tick w) /\ by_condition orc me w /\ known_history me w /\
  requires orc me (gate_runnable me false n p) /\ window p s e /\
  (exists l1 l2 l3, w_log (fst (serve orc cf fuel w)) = l1 ++ x :: l2 ++ r :: l3) /\
  run_record me x /\ run_record me r /\ s <= r_created x <= r_created r /\ r_created r < e.
Proof. exact recorded_twice. Qed.
Print Assumptions c75_recorded_once_refuted.
