(** C82: what a command comes to is what its task comes to. *)
From Coq Require Import Bool String.
From Verif Require Import Model.Base Model.CommandRun Spec.CommandRunSpec Proofs.CommandRunProofs.
Local Open Scope Z_scope.
Local Open Scope string_scope.
Local Open Scope list_scope.

(** What is given in kwds_popen is passed on, the last value of each option... *)
Theorem c82_options_given : forall cwd shell g k v, given g k v -> option_of (kwargs_popen cwd shell g) k = Some v.
Proof. exact options_given. Qed.
Print Assumptions c82_options_given.

Example c82_options_given_met : given [("env", VOther 1); ("stdout", VNone)] "env" (VOther 1).
Proof. apply (given_before [("env", VOther 1)]); [discriminate|]. apply (given_last []). Qed.

(** ...and of the others the directory, the shell and the pipes, and no more. *)
Theorem c82_options_default : forall cwd shell g k v, not_given g k ->
  (option_of (kwargs_popen cwd shell g) k = Some v <-> by_default cwd shell k v).
Proof. exact options_default. Qed.
Print Assumptions c82_options_default.

Example c82_options_default_met : not_given [("env", VOther 1)] "cwd" /\ by_default (Some "/tmp") false "cwd" (VStr "/tmp").
Proof. split; [|now apply default_cwd]. intros v [[=]|[]]. Qed.

(** Without a timeout of its own the task succeeds if and only if the command is
    started and ends with code 0, and it returns what the command printed. *)
Theorem c82_success_partial : forall cwd shell g p outs, not_given g "stdout" ->
  (fst (execute_command cwd shell g None p) = Succeeded outs <->
   starts p /\ ends_within p None /\ p_code p = 0 /\ outs = Some (p_out p)).
Proof. exact command_succeeds. Qed.
Print Assumptions c82_success_partial.
(* Missing: tasks with a timeout of their own, see c82_timeout_refuted. *)

Example c82_success_met :
  let p := Program None (Some 5) 0 [104; 105] [] in
  not_given [("env", VOther 1)] "stdout" /\ starts p /\ ends_within p None /\ p_code p = 0 /\
  execute_command None false [("env", VOther 1)] None p = (Succeeded (Some [104; 105]), Over).
Proof.
  cbv zeta. split; [intros v [[=]|[]]|]. split; [reflexivity|].
  split; [exists 5; split; [reflexivity|discriminate]|]. split; reflexivity.
Qed.

(** Whether it succeeds does not depend on the options... *)
Theorem c82_any_options_partial : forall cwd shell g p,
  (exists outs, fst (execute_command cwd shell g None p) = Succeeded outs) <-> starts p /\ ends_within p None /\ p_code p = 0.
Proof. exact command_any_options. Qed.
Print Assumptions c82_any_options_partial.
(* Missing: tasks with a timeout of their own, see c82_timeout_refuted. *)

Example c82_any_options_met :
  fst (execute_command None false [("stdout", VOther 1)] None (Program None (Some 5) 0 [104; 105] [])) = Succeeded None.
Proof. vm_compute. reflexivity. Qed.

(** ...and output that the user sends elsewhere is not returned. *)
Theorem c82_elsewhere : forall cwd shell g v p, given g "stdout" v -> v <> VPipe -> starts p -> ends_within p None -> p_code p = 0 ->
  execute_command cwd shell g None p = (Succeeded None, Over).
Proof. exact command_elsewhere. Qed.
Print Assumptions c82_elsewhere.

Example c82_elsewhere_met :
  let p := Program None (Some 5) 0 [104; 105] [] in
  given [("stdout", VOther 1)] "stdout" (VOther 1) /\ VOther 1 <> VPipe /\ starts p /\ ends_within p None /\ p_code p = 0.
Proof.
  cbv zeta. split; [apply (given_last [])|]. split; [discriminate|]. split; [reflexivity|].
  split; [exists 5; split; [reflexivity|discriminate]|reflexivity].
Qed.

(** A command that ends with another code fails the task, with the code and what it
    printed as errors. *)
Theorem c82_exit_code : forall cwd shell g p, starts p -> ends_within p None -> p_code p <> 0 -> not_given g "stderr" ->
  execute_command cwd shell g None p = (Failed (ExitError (p_code p) (Some (p_err p))), Over).
Proof. exact command_exit_code. Qed.
Print Assumptions c82_exit_code.

Example c82_exit_code_met :
  let p := Program None (Some 5) (-9) [] [110; 111] in
  starts p /\ ends_within p None /\ p_code p <> 0 /\ not_given [] "stderr".
Proof.
  cbv zeta. split; [reflexivity|]. split; [exists 5; split; [reflexivity|discriminate]|].
  split; [discriminate|]. intros v [].
Qed.

(** A command that cannot be started fails the task. *)
Theorem c82_not_started : forall cwd shell g t p n, p_start p = Some n ->
  execute_command cwd shell g t p = (Failed (StartError n), NotStarted).
Proof. exact command_not_started. Qed.
Print Assumptions c82_not_started.

Example c82_not_started_met : p_start (Program (Some 2) None 0 [] []) = Some 2.
Proof. reflexivity. Qed.

(** Without a timeout of its own the task is over only when the command is... *)
Theorem c82_over : forall cwd shell g p, fst (execute_command cwd shell g None p) <> Hangs ->
  not_left (snd (execute_command cwd shell g None p)).
Proof. exact command_over. Qed.
Print Assumptions c82_over.

Example c82_over_met : fst (execute_command None true [] None (Program None (Some 5) 1 [] [])) <> Hangs.
Proof. discriminate. Qed.

(** ...so the run of a command that does not end does not end either, whatever the
    session's timeout is. *)
Theorem c82_waits : forall cwd shell g p, fst (execute_command cwd shell g None p) = Hangs <-> starts p /\ p_ends p = None.
Proof. exact command_hangs. Qed.
Print Assumptions c82_waits.

Example c82_waits_met : starts (Program None None 0 [] []).
Proof. reflexivity. Qed.

(** Were the timeout passed on as a number, a command that ends in time would be
    run as without, and any other killed. *)
Theorem c82_limit : forall o us p, starts p ->
  (ends_within p (Some us) -> run_command o (Number us) p = run_command o NoLimit p) /\
  (~ ends_within p (Some us) -> run_command o (Number us) p = (Failed TimeoutExpired, Killed)).
Proof. exact command_numbered. Qed.
Print Assumptions c82_limit.

Example c82_limit_met : 
  let p := Program None (Some 5) 0 [] [] in starts p /\ ends_within p (Some 5) /\ ~ ends_within p (Some 4).
Proof.
  cbv zeta. split; [reflexivity|]. split.
  - exists 5. split; [reflexivity|]. intros us [= <-]. apply Z.le_refl.
  - intros (e & [= <-] & L). specialize (L 4 eq_refl). now apply L.
Qed.

(** But a task with a timeout of its own fails whatever its command does, and
    leaves the command running. *)
Theorem c82_timeout_refuted : forall cwd shell g us p, starts p ->
  execute_command cwd shell g (Some us) p = (Failed BadTimeout, LeftRunning).
Proof. exact command_own_timeout. Qed.
Print Assumptions c82_timeout_refuted.

Example c82_timeout_met :
  let p := Program None (Some 5) 0 [104; 105] [] in starts p /\ ends_within p (Some 60000000) /\ p_code p = 0.
Proof.
  cbv zeta. split; [reflexivity|]. split; [|reflexivity].
  exists 5. split; [reflexivity|]. intros us [= <-]. discriminate.
Qed.
