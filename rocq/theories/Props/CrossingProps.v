(** Child processes that are started afresh ("spawn"): C70. *)
From Coq Require Import Bool Arith Lia ZifyBool.
From Verif Require Import Model.Base Model.World Model.Params Model.Condition Model.History Model.Crossing
  Spec.ParamsSpec Spec.CrossingSpec Proofs.ParamsProofs Proofs.CrossingProofs Proofs.CrossingExamples.
Open Scope Z_scope.

(** When everything a function task may be given can be pickled, and the
    functions called in the child ask neither for session parameters nor for
    tasks, the arguments are those of a forked process (for which C37 says where
    they come from). *)
Theorem c70_same : forall n pick s s' t flag passed, is_func t -> all_cross n pick s t passed ->
  spawn_kwargs n pick s s' t passed = run_kwargs n s s' t XProcess flag passed.
Proof. exact spawn_same. Qed.
Print Assumptions c70_same.

Example c70_same_met :
  let s := with_params [(5, PVal (VData 50)); (7, PArg (FuncArg 1 [(0, EnvArg 9 None)] None))] cx_sess in
  let t := cx_task [(6, PVal (VData 6))] [5; 6; 7] in
  is_func t /\ all_cross 9 cx_pick s t [] /\
  spawn_kwargs 9 cx_pick s s t [] = Ok [(5, VData 50); (7, VData 900); (6, VData 6)].
Proof. split; [discriminate|]. split; [exact (proj2 cross_example)|]. vm_compute. reflexivity. Qed.

(** In general: a parameter that cannot be pickled is as if it was not there. *)
Theorem c70_gets : forall n pick s s' t passed kw,
  is_func t -> dictionaries s t passed -> spawn_kwargs n pick s s' t passed = Ok kw ->
  forall k, exists a b,
    arriving n pick s t (own_source t k) a /\
    arriving n pick s t (shared_source s t passed k) b /\
    match (match a with Some q => Some q | None => b end) with
    | None => dget k kw = None
    | Some q => exists v, dget k kw = Some v /\ in_child n s' t q v
    end.
Proof. exact spawn_gets. Qed.
Print Assumptions c70_gets.

Example c70_gets_met :
  spawn_kwargs 9 cx_pick cx_sess cx_sess (cx_task [(5, PVal (VData 1005)); (6, PVal (VData 6))] [5; 6; 7]) [(7, PVal (VData 1007))] =
  Ok [(5, VData 50); (6, VData 6)].
Proof. vm_compute. reflexivity. Qed.

(** So a parameter set for the task can be missing in the call, without any
    error (the default of the function is then used), *)
Theorem c70_lost_refuted : exists n pick s t k v kw kw',
  is_func t /\ dictionaries s t [] /\ own_source t k = Some (PVal v) /\
  run_kwargs n s s t XMain VNone [] = Ok kw /\ dget k kw = Some v /\
  spawn_kwargs n pick s s t [] = Ok kw' /\ dget k kw' = None.
Proof. exact lost_parameter. Qed.
Print Assumptions c70_lost_refuted.

(** and the session's parameter of the same name can take its place. *)
Theorem c70_precedence_refuted : exists n pick s t k v w kw kw',
  is_func t /\ dictionaries s t [] /\ own_source t k = Some (PVal v) /\ dget k (ss_params s) = Some (PVal w) /\ v <> w /\
  run_kwargs n s s t XMain VNone [] = Ok kw /\ dget k kw = Some v /\
  spawn_kwargs n pick s s t [] = Ok kw' /\ dget k kw' = Some w.
Proof. exact other_parameter. Qed.
Print Assumptions c70_precedence_refuted.

(** A function argument that uses a session parameter has no value in the child,
    not even the default set for a missing one, though everything can be pickled
    and main, thread and forked runs get it. *)
Theorem c70_late_refuted : exists s t kw, is_func t /\ dictionaries s t [] /\
  (forall n, run_kwargs (4 + n) s s t XMain VNone [] = Ok kw /\ run_kwargs (4 + n) s s t XProcess VNone [] = Ok kw) /\
  forall n pick, (forall p, pick p = true) -> spawn_kwargs (4 + n) pick s s t [] = Err AttributeError.
Proof. exact late_function. Qed.
Print Assumptions c70_late_refuted.

(** The task itself crosses exactly when its own state can be pickled, as long as
    it has not given a return value before and the tasks that have can be
    pickled. *)
Theorem c70_task : forall n fin ok mark x,
  ~ In x fin -> mark x = true -> (forall y, In y fin -> ok y = true /\ mark y = false) ->
  fst (getstate (S (S n)) fin ok mark x) = ok x.
Proof. exact task_crosses. Qed.
Print Assumptions c70_task.

Example c70_task_met :
  getstate 4 [2; 3] (fun _ => true) (Z.eqb 1) 1 = (true, 23) /\
  getstate 4 [2; 3] (fun x => negb (x =? 1)) (Z.eqb 1) 1 = (false, 23).
Proof. split; vm_compute; reflexivity. Qed.

(** Not after it has: pickling the task needs pickling its session, whose return
    values have the task as a key, and so on, however deep Python can recurse.
    (So a process task runs once.) *)
Theorem c70_again_refuted : forall n fin ok mark x, In x fin -> mark x = true -> fst (getstate n fin ok mark x) = false.
Proof. exact again_fails. Qed.
Print Assumptions c70_again_refuted.

Example c70_again_met : getstate 9 [1] (fun _ => true) (Z.eqb 1) 1 = (false, 10).
Proof. vm_compute. reflexivity. Qed.

(** Nor when any task that has finished cannot be pickled, say a main or thread
    task of a lambda. *)
Theorem c70_neighbour_refuted : forall n fin ok mark x y, In y fin -> ok y = false -> mark x = true ->
  fst (getstate n fin ok mark x) = false.
Proof. exact other_fails. Qed.
Print Assumptions c70_neighbour_refuted.

Example c70_neighbour_met : fst (getstate 9 [2] (fun x => x =? 1) (Z.eqb 1) 1) = false.
Proof. vm_compute. reflexivity. Qed.

(** With two tasks that have finished the attempts double with each level Python
    can recurse. *)
Theorem c70_attempts_refuted : forall n fin ok mark x, (2 <= length fin)%nat ->
  (forall y, In y fin -> ok y = true /\ mark y = false) ->
  2 ^ Z.of_nat n <= snd (getstate (S n) fin ok mark x).
Proof. exact attempts_double. Qed.
Print Assumptions c70_attempts_refuted.

Example c70_attempts_met : snd (getstate 12 [2; 3] (fun _ => true) (Z.eqb 1) 1) = 6143.
Proof. vm_compute. reflexivity. Qed.

(** A start that fails because the configuration or a hook cannot be pickled is
    recorded as one run and its failure. *)
Theorem c70_start : forall st l name t id, ts_status st <> Some ARun ->
  exists st', start_spawned (Cargo true false) st l name t id =
    (st', l ++ [Rec name ARun t (Some id); Rec name AFail t (Some id)], Err TaskSetupError) /\
  ts_status st' = Some AFail.
Proof. exact start_fails_once. Qed.
Print Assumptions c70_start.

Example c70_start_met :
  snd (fst (start_spawned (Cargo true false) fresh_state [] 1 cx_t 7)) = [Rec 1 ARun cx_t (Some 7); Rec 1 AFail cx_t (Some 7)].
Proof. vm_compute. reflexivity. Qed.

(** While another run of the task is going on the failed run has no start. *)
Theorem c70_unrecorded_refuted : forall st l name t id, ts_status st = Some ARun ->
  exists st', start_spawned (Cargo true false) st l name t id =
    (st', l ++ [Rec name AFail t (Some id)], Err TaskSetupError).
Proof. exact start_fails_unrecorded. Qed.
Print Assumptions c70_unrecorded_refuted.

Example c70_unrecorded_met :
  let w := fst (set_status fresh_state [] 1 ARun cx_t cx_t (Some 6) true) in
  ts_status (fst w) = Some ARun /\
  snd (fst (start_spawned (Cargo true false) (fst w) (snd w) 1 cx_t 7)) = [Rec 1 ARun cx_t (Some 6); Rec 1 AFail cx_t (Some 7)].
Proof. split; vm_compute; reflexivity. Qed.

(** A task that cannot be pickled itself fails twice in one start, *)
Theorem c70_twice_refuted : forall rest st l name t id,
  exists st', start_spawned (Cargo false rest) st l name t id =
    (st', l ++ [Rec name ARun t None; Rec name AFail t None; Rec name AFail t (Some id)], Err TaskSetupError).
Proof. exact start_fails_twice. Qed.
Print Assumptions c70_twice_refuted.

(** which uses up the one retry it may have. *)
Theorem c70_retry_refuted : exists name t id,
  let after g := start_spawned g fresh_state [] name t id in
  let retries g := retry_state 1 false (fst (fst (after g))) (snd (fst (after g))) name in
  retries (Cargo true false) = true /\ retries (Cargo false true) = false.
Proof. exact retry_not_made. Qed.
Print Assumptions c70_retry_refuted.

(** What a child reports is logged in its order, the last record gives the
    status, and a return value is stored, if all of it can be pickled. *)
Theorem c70_back : forall pick name ms st l rets, (forall m, In m ms -> arrives pick m = true) ->
  exists st' rets', receive_all pick name (st, l, rets) ms = (st', l ++ map (record_of name) ms, rets') /\
  forall m, last_of ms = Some m ->
    ts_status st' = Some (r_action (record_of name m)) /\
    (forall t id v, m = MSuccess t id v -> dget name rets' = Some v).
Proof. exact all_come_back. Qed.
Print Assumptions c70_back.

Example c70_back_met :
  let w := receive_all cx_pick 1 (fresh_state, [], []) [MPlain ARun cx_t 7; MSuccess (cx_t + 1) 7 (VData 3)] in
  snd w = [(1, VData 3)] /\ snd (fst w) = [Rec 1 ARun cx_t (Some 7); Rec 1 ASuccess (cx_t + 1) (Some 7)].
Proof. split; vm_compute; reflexivity. Qed.

(** A function that succeeds and returns something that cannot be pickled never
    ends: its success is lost and the task counts as running from then on (with
    forked processes too). *)
Theorem c70_endless_refuted : forall pick name st l rets t1 t2 id v, pick (PVal v) = false ->
  exists st', receive_all pick name (st, l, rets) [MPlain ARun t1 id; MSuccess t2 id v] =
    (st', l ++ [Rec name ARun t1 (Some id)], rets) /\
  forall force, get_status force st' (l ++ [Rec name ARun t1 (Some id)]) name = Some ARun.
Proof. exact success_lost. Qed.
Print Assumptions c70_endless_refuted.

Example c70_endless_met : cx_pick (PVal (VData 1001)) = false.
Proof. reflexivity. Qed.
