(** Return values: C40. *)
From Coq Require Import Bool Arith Lia ZifyBool.
From Verif Require Import Model.Base Model.History Model.World Model.Run Model.Scheduler Model.Params.
From Verif Require Import Spec.SchedulerSpec Spec.ParamsSpec Spec.ReturnSpec.
From Verif Require Import Proofs.ReturnProofs Proofs.ReturnExamples.
From Verif Require Import Proofs.SchedulerExamples Proofs.OutcomeExamples.
Open Scope Z_scope.

(** * C40 *)

(** When the code of a run on the main thread, in a thread or in a coroutine has
    returned, the session has its value for the task, whatever happens then. *)
Theorem c40_success : forall orc x n rid s w w' o,
  s_exec s = None -> s_return s = None -> run_body orc false x n rid s w = (w', o) ->
  return_of n w' = Some (s_value s) /\ forall m, m <> n -> return_of m w' = return_of m w.
Proof. exact success_returns. Qed.
Print Assumptions c40_success.

Example c40_success_met :
  return_of 1 (fst (run_body (ex_oracle (fun _ => [])) false (Some XMain) 1 (Some 0) good_script ex_main)) = Some 7.
Proof. vm_compute. reflexivity. Qed.

(** When it has raised, inaction and cancellation included, no value changes. *)
Theorem c40_failure : forall orc child x n rid s w w' o,
  s_exec s <> None -> run_body orc child x n rid s w = (w', o) -> forall m, return_of m w' = return_of m w.
Proof. exact failure_returns. Qed.
Print Assumptions c40_failure.

Example c40_failure_met :
  let w := set_returns [(1, 3)] ex_main in
  return_of 1 (fst (run_body (ex_oracle (fun _ => [])) false (Some XMain) 1 (Some 0) (ex_ends (Some ValueError)) w)) =
  Some 3.
Proof. vm_compute. reflexivity. Qed.

(** Reading the records of process runs stores the values of the successful ones
    among them, the later over the earlier. *)
Theorem c40_process : forall orc cf, (forall k, o_env orc k = []) -> forall fuel w w',
  handle_logs orc cf fuel w = (w', Returns tt) ->
  w_queue w' = [] /\ w_returns w' = rev (returned (w_queue w)) ++ w_returns w.
Proof. exact logs_return. Qed.
Print Assumptions c40_process.

Example c40_process_met :
  let '(w, o) := handle_logs (ex_oracle (fun _ => [])) ex_config 10 ex_sent in
  o = Returns tt /\ w_queue w = [] /\ return_of 1 w = Some 6 /\ return_of 2 w = None.
Proof. vm_compute. repeat split; reflexivity. Qed.

(** A process whose code ends sends one record of how it ended: with the value
    it returned if it returned, and with none otherwise. *)
Theorem c40_child : forall orc u s w t r,
  find_run u w = Some (t, r) -> rn_kind r = XProcess -> rn_phase r = Busy ->
  s_setup s = None -> tidy s -> ~ leaves_scheduler (s_exec s) ->
  exists w', do_move orc (MProcess u s) w = (w', Returns tt) /\
    w_queue w' = w_queue w ++ [QRec (Rec (t_name t) (classified (s_exec s)) (w_clock w) (rn_id r))
                                 (match s_exec s with None => Some (s_value s) | Some _ => None end)].
Proof. exact child_sends. Qed.
Print Assumptions c40_child.

Example c40_child_met :
  let r := Run 0 (Some 5) 900 XProcess Busy false false in
  let w := on_task 1 (with_stack [r]) lost_world in
  (exists t, find_run 0 w = Some (t, r)) /\ tidy good_script /\
  w_queue (fst (do_move (ex_oracle (fun _ => [])) (MProcess 0 good_script) w)) =
  [QRec (Rec 1 ASuccess 1000 (Some 5)) (Some 7)].
Proof.
  cbv zeta. split; [eexists; vm_compute; reflexivity|]. split; [|vm_compute; reflexivity].
  repeat split; discriminate.
Qed.

(** In any execution of a session values are only added: a task's value changes
    only by a newer one of the same task. *)
Theorem c40_kept : forall orc cf fuel w w' o, serve orc cf fuel w = (w', o) ->
  exists new, w_returns w' = new ++ w_returns w /\
    forall n, (forall v, ~ In (n, v) new) -> return_of n w' = return_of n w.
Proof. exact serve_latest. Qed.
Print Assumptions c40_kept.

Example c40_kept_met :
  let '(w, o) := serve (ex_oracle (fun _ => [])) ex_config 30 (set_returns [(1, 3); (2, 4)] ex_main) in
  w_returns w = [(1, 7); (1, 3); (2, 4)].
Proof. vm_compute. reflexivity. Qed.

(** [Return(task)] gives the value the session has for the task, else the
    default, and without a default it raises. *)
Theorem c40_argument : forall k s w cx n default,
  (cx_session cx = SGiven \/ cx_task cx <> None) -> reads s w -> In n (map t_name (w_tasks w)) ->
  get_value (S k) s cx (ReturnArg n default) =
  match return_of n w, default with
  | Some v, _ => Ok (VData v)
  | None, Some v => Ok v
  | None, None => Err KeyError
  end.
Proof. exact return_argument. Qed.
Print Assumptions c40_argument.

Example c40_argument_met :
  let w := set_returns [(1, 7); (1, 3)] ex_main in
  reads (ex_sess w) w /\
  get_value 1 (ex_sess w) (Ctx (Some 9) SGiven None) (ReturnArg 1 None) = Ok (VData 7).
Proof. vm_compute. repeat split; reflexivity. Qed.

(** The value of a process run is lost when its success is read while another
    task's process is being started: the run is recorded as a success and the
    task is shown succeeded, yet there is no value. *)
Theorem c40_process_lost_refuted : exists orc cf fuel w w',
  run_cycle orc cf fuel w = (w', Returns tt) /\ w_log w = [] /\ w_returns w = [] /\
  (exists i, In (Rec 1 ASuccess 1000 (Some i)) (w_log w')) /\
  (forall k m, In m (o_env orc k) -> m = MProcess 0 good_script) /\ s_exec good_script = None /\
  w_queue w' = [] /\ return_of 1 w' = None.
Proof. exact process_lost. Qed.
Print Assumptions c40_process_lost_refuted.
