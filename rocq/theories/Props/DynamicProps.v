(** C72: tasks created and removed while the scheduler runs. *)
From Coq Require Import ZArith List Bool Arith Lia Permutation.
From Verif Require Import Model.Base Model.History Model.Dynamic Spec.DynamicSpec
  Proofs.DynamicStart Proofs.DynamicCycle Proofs.DynamicOrder Proofs.DynamicMemory Proofs.DynamicExamples.
Import ListNotations.
Open Scope nat_scope.

(** Whatever is created and removed: a task starts only if it was in the session
    when the cycle (or the startup, or the shutdown tasks) began. *)
Theorem c72_starts : forall orc cf n w w' r p i u k q,
  dw_trace w = [] -> dserve orc cf n w = (w', r) -> dw_trace w' = p ++ DStart i u k :: q ->
  exists p1 p2, p = p1 ++ DPhase :: p2 /\ one_phase p2 /\ In i (session_after (dw_members w) p1).
Proof. exact starts_of_members. Qed.
Print Assumptions c72_starts.
(** the task created while the scheduler runs is started *)
Example c72_starts_met : dw_trace ex_w = [] /\ dserve ex_orc ex_cf 20 ex_w = (ex_end, Returns tt) /\
  (exists p q, dw_trace ex_end = p ++ DStart 1 1 KThread :: q) /\ ~ In 1 (dw_members ex_w).
Proof.
  split; [reflexivity|]. split; [exact ex_returns|]. split; [|cbn; intros [H|[]]; discriminate].
  eexists [_; _; _; _; _; _; _; _; _; _; _; _; _; _; _; _; _], _. vm_compute. reflexivity.
Qed.

(** In a session that ends without an error, every cycle comes to exactly the
    cyclic tasks that were in the session when it began, to each of them once:
    to the ones created before it, not to the ones removed before it. *)
Theorem c72_cycles : forall orc cf n w w' p seg q,
  outset w -> dserve orc cf n w = (w', Returns tt) ->
  dw_trace w' = p ++ DPhase :: seg ++ DPhase :: q -> one_phase seg -> p <> [] ->
  Permutation (considered seg) (filter (cyclic w') (session_after (dw_members w) p)).
Proof. exact cycles_come_to_members. Qed.
Print Assumptions c72_cycles.
Example c72_cycles_met : outset ex_w /\ dserve ex_orc ex_cf 20 ex_w = (ex_end, Returns tt) /\
  exists p seg q, dw_trace ex_end = p ++ DPhase :: seg ++ DPhase :: q /\ one_phase seg /\ p <> [] /\
    considered seg = [1] /\ dw_members ex_w = [0].
Proof.
  split; [exact ex_outset|]. split; [exact ex_returns|].
  eexists [_; _; _; _; _; _; _; _; _; _; _; _; _; _], [_; _; _; _], _. split; [vm_compute; reflexivity|].
  split; [vm_compute; intros H; repeat (destruct H as [H|H]; [discriminate|]); exact H|]. split; [discriminate|]. split; reflexivity.
Qed.

(** If tasks are removed in order (disabled, none of their runs going, none of
    their records on the way), the scheduler does not fail ... *)
Theorem c72_orderly_no_error : forall orc cf n w w' r,
  outset w -> orderly orc -> dserve orc cf n w = (w', r) -> forall e, r <> Raises e.
Proof. exact orderly_no_error. Qed.
Print Assumptions c72_orderly_no_error.
(** ... every record of a process is noted on the task that started it ... *)
Theorem c72_orderly_notes : forall orc cf n w w' r i q,
  outset w -> orderly orc -> dserve orc cf n w = (w', r) -> In (DNote i q) (dw_trace w') -> q_from q = i.
Proof. exact orderly_notes. Qed.
Print Assumptions c72_orderly_notes.
(** ... there are never more processes than allowed, those of removed tasks
    included ... *)
Theorem c72_orderly_bound : forall orc cf n w w' r p,
  outset w -> orderly orc -> dserve orc cf n w = (w', r) -> prefix p (dw_trace w') ->
  processes (live_after p) <= dc_max cf.
Proof. exact orderly_bound. Qed.
Print Assumptions c72_orderly_bound.
(** ... and nothing is running any more when the session is over. *)
Theorem c72_orderly_over : forall orc cf n w w',
  outset w -> orderly orc -> dserve orc cf n w = (w', Returns tt) -> live_after (dw_trace w') = [].
Proof. exact orderly_all_over. Qed.
Print Assumptions c72_orderly_over.
(** a process runs, is over, and its task is removed; another one comes *)
Example c72_orderly_met : outset ex_w /\ orderly ex_orc /\ dserve ex_orc ex_cf 20 ex_w = (ex_end, Returns tt) /\
  In (DStart 0 0 KProcess) (dw_trace ex_end) /\ In (DRemove 0) (dw_trace ex_end) /\ In (DStart 1 1 KThread) (dw_trace ex_end) /\
  (exists q, In (DNote 0 q) (dw_trace ex_end)) /\
  exists p, prefix p (dw_trace ex_end) /\ processes (live_after p) = 1.
Proof.
  split; [exact ex_outset|]. split; [exact ex_orderly|]. split; [exact ex_returns|].
  split; [vm_compute; tauto|]. split; [vm_compute; tauto|]. split; [vm_compute; tauto|].
  split; [eexists; vm_compute; do 5 right; left; reflexivity|].
  exists (firstn 5 (dw_trace ex_end)). split; [exists (skipn 5 (dw_trace ex_end)); symmetry; apply firstn_skipn|reflexivity].
Qed.

(** If no name is used again, each task's start is decided with its memory in
    agreement with the log. *)
Theorem c72_memory : forall orc cf, new_names orc -> forall n w w',
  outset w -> dserve orc cf n w = (w', Returns tt) ->
  forall i st l, In (DJudge i st l) (dw_trace w') -> remembers (do_name (obj i w')) st l.
Proof. exact memory_serve. Qed.
Print Assumptions c72_memory.
Example c72_memory_met : new_names ex_orc /\ outset ex_w /\ dserve ex_orc ex_cf 20 ex_w = (ex_end, Returns tt) /\
  exists st l, In (DJudge 1 st l) (dw_trace ex_end) /\ ts_status st = Some ASuccess.
Proof.
  split; [exact ex_new_names|]. split; [exact ex_outset|]. split; [exact ex_returns|].
  eexists _, _. split; [vm_compute; do 21 right; left; reflexivity|reflexivity].
Qed.

(** Otherwise: a task removed by another one in the same cycle still starts; *)
Theorem c72_removed_starts_refuted :
  exists orc cf n w w' p i q u k s, outset w /\ dserve orc cf n w = (w', Returns tt) /\
    dw_trace w' = p ++ DRemove i :: q ++ DStart i u k :: s /\ ~ In (DAdd i) q.
Proof. exact removed_starts. Qed.
Print Assumptions c72_removed_starts_refuted.
(** the outcome of a process whose task was removed after it was over (and was
    not alive) crashes the scheduler and is lost; *)
Theorem c72_outcome_crashes_refuted :
  exists orc cf n w w', outset w /\ careful orc /\ dserve orc cf n w = (w', Raises KeyError) /\
    (exists i u, In (DStart i u KProcess) (dw_trace w') /\ In (DOver i u) (dw_trace w')) /\
    (forall k w i u e, o_move orc k w = MvEnd i u e -> e = EndOk) /\ (forall k, o_stop orc k = false) /\
    forall r, In r (dw_log w') -> r_action r = ARun.
Proof. exact outcome_crashes. Qed.
Print Assumptions c72_outcome_crashes_refuted.
(** or another task that is just starting is said to have failed, though every
    run's code returns and none is terminated; *)
Theorem c72_other_blamed_refuted :
  exists orc cf n w w', outset w /\ careful orc /\ dserve orc cf n w = (w', Returns tt) /\
    (forall k w i u e, o_move orc k w = MvEnd i u e -> e = EndOk) /\ (forall k, o_stop orc k = false) /\
    exists i u t, filter (fun e => match e with DStart j _ _ => Nat.eqb j i | _ => false end) (dw_trace w') = [DStart i u KProcess] /\
      In (Rec (do_name (obj i w')) AFail t None) (dw_log w').
Proof. exact other_blamed. Qed.
Print Assumptions c72_other_blamed_refuted.
(** or a new task of that name, which never ran, is credited with it; *)
Theorem c72_namesake_refuted :
  exists orc cf n w w' i q, outset w /\ careful orc /\ dserve orc cf n w = (w', Returns tt) /\
    In (DNote i q) (dw_trace w') /\ q_from q <> i /\ q_action q = ASuccess /\
    ts_status (do_state (obj i w')) = Some ASuccess /\ forall u k, ~ In (DStart i u k) (dw_trace w').
Proof. exact namesake_credited. Qed.
Print Assumptions c72_namesake_refuted.
(** a process whose task is removed while it runs does not count to the bound
    and is left running when the session is over; *)
Theorem c72_not_counted_refuted :
  exists orc cf n w w', outset w /\ dserve orc cf n w = (w', Returns tt) /\
    (exists p, prefix p (dw_trace w') /\ dc_max cf < processes (live_after p)) /\
    live_after (dw_trace w') <> [].
Proof. exact not_counted. Qed.
Print Assumptions c72_not_counted_refuted.
(** a daily task created anew under its name runs again the same day. *)
Theorem c72_forgotten_refuted :
  exists orc cf n w w', outset w /\ dc_cond cf = daily_cond /\ dserve orc cf n w = (w', Returns tt) /\
    exists p r1 q r2 s, dw_log w' = p ++ r1 :: q ++ r2 :: s /\ r_task r1 = r_task r2 /\ r_action r1 = ASuccess /\ r_action r2 = ASuccess /\
      (r_created r1 <= r_created r2 < r_created r1 + us_per_day)%Z.
Proof. exact forgotten. Qed.
Print Assumptions c72_forgotten_refuted.
