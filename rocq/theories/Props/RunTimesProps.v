(** C74: the times on a task's records are those of the run. *)
From Coq Require Import ZArith List Bool Sorted QArith Lia.
From Verif Require Import Model.Base Model.Duration Model.RunTimes Spec.DurationSpec Spec.RunTimesSpec Proofs.RunTimesProofs Proofs.RunTimesExamples.
Import ListNotations.
Open Scope Z_scope.

(** If no other run of the task begins before a run in the scheduler's process
    ends, its outcome says when it ended, and a start no earlier than the run was
    made and no later than its start was logged (they are the same if no time
    passes in between); the runtime is the time between. *)
Theorem c74_alone : forall force x u c c' mid tagged a d d', x_made x u <= c <= c' -> none_waiting x ->
  Forall no_begin mid -> Forall outcome_step mid ->
  exists r between o, x_log (do_steps force x (Begin u Here c c' true :: mid ++ [Finish u tagged Here a d d' true])) = x_log x ++ r :: between ++ [o] /\
    starts r u (x_made x u) c' /\ tr_action o = a /\ tr_run o = (if tagged then Some u else None) /\
    exists s, lasted o s d /\ x_made x u <= s <= c'.
Proof. exact alone. Qed.
Print Assumptions c74_alone.
(** an earlier run (3) ends meanwhile *)
Example c74_alone_met : let x := do_steps false nothing [Make 3 0; Begin 3 Here 1 1 true; Make 1 4; Mark 1 5] in
  let mid := [Finish 3 true Here AFail 7 7 true; Receive true] in
  x_made x 1 <= 6 <= 6 /\ none_waiting x /\ Forall no_begin mid /\ Forall outcome_step mid /\
  map tr_start (x_log (do_steps false x (Begin 1 Here 6 6 true :: mid ++ [Finish 1 true Here ASuccess 9 9 true]))) = [Some 0; Some 4; Some 6; Some 6].
Proof. cbn. repeat split; try lia; repeat constructor; discriminate. Qed.

(** A run in a process: also when other runs of the task begin and end in the
    meantime; its outcome comes to the log as it is sent. *)
Theorem c74_process : forall x u c c' mid tagged a d d' after, Forall (not_child u) mid -> Forall written after ->
  exists o, In o (x_log (do_steps false x (Begin u Child c c' true :: mid ++ Finish u tagged Child a d d' true :: after)) ++
                 x_queue (do_steps false x (Begin u Child c c' true :: mid ++ Finish u tagged Child a d d' true :: after))) /\
    tr_action o = a /\ tr_run o = (if tagged then Some u else None) /\ tr_created o = d' /\ lasted o c d.
Proof. exact in_child. Qed.
Print Assumptions c74_process.
Example c74_process_met : let mid := [Receive true; Make 2 5; Begin 2 Child 6 6 true; Finish 2 true Child AFail 7 7 true] in
  let after := [Receive true; Receive true; Receive true] in
  Forall (not_child 1) mid /\ Forall written after /\
  map tr_runtime (x_log (do_steps false nothing (Begin 1 Child 1 1 true :: mid ++ Finish 1 true Child ASuccess 9 9 true :: after))) =
    [None; None; Some 1; Some 8].
Proof. cbn. repeat split; repeat constructor; discriminate. Qed.

(** A termination that the scheduler records, of a run in a process: its start is
    the time of the start record, if no other run began since that was received. *)
Theorem c74_terminated : forall force x u r q mid w tagged a d d', x_queue x = r :: q -> starts r u (x_made x u) (tr_created r) ->
  Forall (fun r => tr_action r <> ARun) q -> Forall no_begin mid -> Forall outcome_step mid ->
  exists between o, x_log (do_steps force x (Receive true :: mid ++ [Finish w tagged Here a d d' true])) = x_log x ++ r :: between ++ [o] /\
    tr_action o = a /\ tr_run o = (if tagged then Some w else None) /\ lasted o (tr_created r) d.
Proof. exact terminated. Qed.
Print Assumptions c74_terminated.
Example c74_terminated_met : let x := do_steps true nothing [Make 1 0; Begin 1 Child 1 2 true] in
  exists r, x_queue x = [r] /\ starts r 1 (x_made x 1) (tr_created r) /\
  map tr_runtime (x_log (do_steps true x [Receive true; Finish 1 true Here ATerminate 9 9 true])) = [None; Some 7].
Proof. eexists. split; [reflexivity|]. split; [repeat split|reflexivity]. Qed.
(** A crash found when a session starts: from the time of the latest start on
    record until it was found. *)
Theorem c74_crash : forall force x l r k u tagged d d', x_log x = l ++ r :: k -> tr_action r = ARun -> Forall (fun r => tr_action r <> ARun) k ->
  exists o, x_log (do_steps force x [Load; Finish u tagged Here ACrash d d' true]) = x_log x ++ [o] /\ tr_action o = ACrash /\ lasted o (tr_created r) d.
Proof. exact crashed. Qed.
Print Assumptions c74_crash.
Example c74_crash_met : let x := do_steps false nothing [Make 1 0; Begin 1 Here 1 2 true; Make 2 5; Begin 2 Here 5 5 true; Finish 1 true Here ASuccess 6 6 true] in
  exists l r k, x_log x = l ++ r :: k /\ tr_action r = ARun /\ Forall (fun r => tr_action r <> ARun) k /\ tr_created r = 5 /\ k <> [].
Proof. eexists [_], _, [_]. split; [reflexivity|]. split; [reflexivity|]. split; [constructor; [discriminate|constructor]|]. split; [reflexivity|discriminate]. Qed.

(** The record of a start says when the run was made, whatever happens
    meanwhile and wherever the run is. *)
Theorem c74_made : forall force x u m mid p c c' after, Forall (not_made u) mid -> Forall written after ->
  exists r, In r (x_log (do_steps force x (Make u m :: mid ++ Begin u p c c' true :: after)) ++
                 x_queue (do_steps force x (Make u m :: mid ++ Begin u p c c' true :: after))) /\ starts r u m c'.
Proof. exact run_made. Qed.
Print Assumptions c74_made.
Example c74_made_met : let mid := [Make 2 5; Begin 2 Here 6 6 true; Finish 2 true Here AFail 7 7 true] in
  let after := [Finish 1 true Child ASuccess 9 9 true; Receive true; Receive true] in
  Forall (not_made 1) mid /\ Forall written after /\
  map tr_start (x_log (do_steps false nothing (Make 1 3 :: mid ++ Begin 1 Child 8 8 true :: after))) = [Some 5; Some 6; Some 3; Some 8].
Proof.
  cbv zeta. split; [repeat constructor; discriminate|]. split; [repeat constructor|]. vm_compute. reflexivity.
Qed.

(** Whatever runs there are and however their steps interleave: if the clock is
    not set back, an outcome's end is not after its record was made, and it has
    either no start and no runtime, or a start not after its end and the time
    between as its runtime. *)
Theorem c74_runtime : forall force l r, clock_goes_on l -> Forall outcome_step l ->
  In r (x_log (do_steps force nothing l) ++ x_queue (do_steps force nothing l)) -> tr_action r <> ARun ->
  exists e, tr_end r = Some e /\ e <= tr_created r /\
    (tr_start r = None /\ tr_runtime r = None \/ exists s, lasted r s e /\ s <= e).
Proof. exact runtimes. Qed.
Print Assumptions c74_runtime.
Example c74_runtime_met : clock_goes_on two_runs /\ Forall outcome_step two_runs /\
  exists r, In r (x_log (do_steps true nothing two_runs)) /\ tr_action r <> ARun /\ tr_runtime r = Some (sec 10).
Proof.
  split; [unfold clock_goes_on; cbn; sorted|]. split; [repeat constructor; discriminate|].
  eexists. split; [right; right; left; reflexivity|]. split; [discriminate|reflexivity].
Qed.

(** The start on an outcome is that of the latest run of the task to begin,
    whichever run it is the outcome of; ... *)
Theorem c74_latest : forall force x u w c c' mid tagged a d d', x_made x u <= c <= c' -> none_waiting x ->
  Forall no_begin mid -> Forall outcome_step mid ->
  exists r between o, x_log (do_steps force x (Begin u Here c c' true :: mid ++ [Finish w tagged Here a d d' true])) = x_log x ++ r :: between ++ [o] /\
    starts r u (x_made x u) c' /\ tr_action o = a /\ tr_run o = (if tagged then Some w else None) /\
    exists s, lasted o s d /\ x_made x u <= s <= c'.
Proof. exact latest. Qed.
Print Assumptions c74_latest.
(** ... so of two runs at the same time the one that began at 0 and ended at 60
    seconds has begun, its outcome says, at 50 seconds, and lasted 10. *)
Theorem c74_overlap_refuted : exists l u r o, clock_goes_on l /\ Forall outcome_step l /\ In r (x_log (do_steps false nothing l)) /\
  In o (x_log (do_steps false nothing l)) /\ starts r u 0 0 /\ tr_action o = ASuccess /\ tr_run o = Some u /\
  lasted o (sec 50) (sec 60).
Proof. exact overlapping. Qed.
Print Assumptions c74_overlap_refuted.
(** The records of the start and of the outcome of one run can have different
    starts even if it is the only run. *)
Theorem c74_start_refuted : exists l u r o s s', clock_goes_on l /\ Forall outcome_step l /\
  x_log (do_steps false nothing l) = [r; o] /\ tr_run r = Some u /\ tr_run o = Some u /\
  tr_action r = ARun /\ tr_start r = Some s /\ tr_start o = Some s' /\ s < s'.
Proof. exact two_starts. Qed.
Print Assumptions c74_start_refuted.
(** With force_status_from_logs a run in a process has no start and no runtime. *)
Theorem c74_process_refuted : exists l u o, clock_goes_on l /\ Forall outcome_step l /\ In o (x_log (do_steps true nothing l)) /\
  In (Begin u Child 0 0 true) l /\ tr_run o = Some u /\ tr_action o = ASuccess /\ tr_start o = None /\ tr_runtime o = None.
Proof. exact no_runtime. Qed.
Print Assumptions c74_process_refuted.

(** In a repository of TaskLogRecords or TaskRunRecords the runtime is a
    millionth of what it was, to the nearest microsecond: its seconds are taken
    for microseconds.  It is never the right one. *)
Theorem c74_record_runtime_refuted : forall r rt, tr_runtime r = Some rt ->
  exists t, ty_runtime (as_typed r) = Some t /\ gives t (inject_Z rt / inject_Z 1000000)%Q /\ (0 < rt -> t <> Returns rt).
Proof. exact typed_runtime. Qed.
Print Assumptions c74_record_runtime_refuted.
(** an hour *)
Example c74_record_runtime_met : ty_runtime (as_typed (TRec ASuccess None (Some 0) (Some (sec 3600)) (Some (sec 3600)) (sec 3600))) = Some (Returns 3600).
Proof. vm_compute. reflexivity. Qed.
