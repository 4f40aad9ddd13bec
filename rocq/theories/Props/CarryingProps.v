(** Records carried from a process to the log: C81.  [percent] is what msg % args
    makes, [show] how an exception is shown. *)
From Coq Require Import Bool Lia.
From Verif Require Import Model.Base Model.Carrying Spec.CarryingSpec Proofs.CarryingProofs.
Open Scope Z_scope.

(** * C81 *)

(** A record of a task made in a process of its own reaches the handlers of the
    task's logger as it would have been there had the task been run in the main
    process: the same text, message, traceback, action and all the rest; and the
    return value of a success is handed over and does not stay in the record. *)
Theorem c81_same_partial : forall percent show r v a, as_logged r -> r_args r = None -> r_action r = Some a ->
  exists h r', handled percent show r = Ok h /\ carried percent show (in_process v r) = Ok (returned v r, r') /\
    handled percent show r' = Ok h.
Proof. exact carried_same. Qed.
Print Assumptions c81_same_partial.

(** The records of a failure with an exception and of a success *)
Example c81_same_met :
  let percent := fun m (_ : Z) => m in let show := fun e => [84; e] in
  let failed := LRec [70; 97] None None (Exception 5) None (Some a_fail) None 8 in
  let done := LRec [79; 107] None None NoInfo None (Some a_success) None 9 in
  as_logged failed /\ as_logged done /\
  handled percent show failed = Ok (Stored [70; 97; 10; 84; 5] (Some [70; 97]) (Some [84; 5]) (Some a_fail) None 8) /\
  carried percent show (in_process 33 failed) =
    Ok (None, LRec [70; 97] None (Some [70; 97; 10; 84; 5]) (InfoText [84; 5]) (Some [84; 5]) (Some a_fail) None 8) /\
  carried percent show (in_process 33 done) = Ok (Some 33, LRec [79; 107] None (Some [79; 107]) NoInfo None (Some a_success) None 9).
Proof.
  cbv zeta. split; [repeat split; right; exists 5; reflexivity|]. split; [repeat split; left; reflexivity|].
  split; [vm_compute; reflexivity|]. split; vm_compute; reflexivity.
Qed.

(** In particular the traceback of a failure is there, once. *)
Theorem c81_traceback : forall percent show r v e, as_logged r -> r_args r = None -> r_action r = Some a_fail ->
  r_exc_info r = Exception e -> ends_line (r_msg r) = false -> show e <> [] ->
  exists g r', carried percent show (in_process v r) = Ok (g, r') /\
    handled percent show r' = Ok (Stored (r_msg r ++ newline :: show e) (Some (r_msg r)) (Some (show e)) (Some a_fail) None (r_rest r)).
Proof. exact carried_traceback. Qed.
Print Assumptions c81_traceback.

Example c81_traceback_met :
  let r := LRec [70; 97] None None (Exception 5) None (Some a_fail) None 8 in
  as_logged r /\ r_exc_info r = Exception 5 /\ ends_line (r_msg r) = false.
Proof. cbv zeta. split; [repeat split; right; exists 5; reflexivity|]. split; reflexivity. Qed.

(** It does not matter how many handlers the record has been through. *)
Theorem c81_handlers : forall percent show r s r', format percent show r = Ok (s, r') -> format percent show r' = Ok (s, r').
Proof. exact format_again. Qed.
Print Assumptions c81_handlers.

Example c81_handlers_met :
  format (fun m _ => m) (fun e => [84; e]) (LRec [70] None None (Exception 5) None (Some a_fail) None 8) =
    Ok ([70; 10; 84; 5], LRec [70] None (Some [70]) (Exception 5) (Some [84; 5]) (Some a_fail) None 8).
Proof. vm_compute. reflexivity. Qed.

(** A record logged with arguments arrives without them put in. *)
Theorem c81_args_refuted : forall percent show r v a x, as_logged r -> r_args r = Some x -> r_action r = Some a ->
  exists h r' h', handled percent show r = Ok h /\ carried percent show (in_process v r) = Ok (returned v r, r') /\
    handled percent show r' = Ok h' /\ h_message h = Some (percent (r_msg r) x) /\ h_message h' = Some (r_msg r).
Proof. exact carried_unformatted. Qed.
Print Assumptions c81_args_refuted.

Example c81_args_met :
  let percent := fun m x => m ++ [x] in
  let r := LRec [37] (Some 7) None NoInfo None (Some a_run) None 8 in
  as_logged r /\ percent (r_msg r) 7 <> r_msg r.
Proof. cbv zeta. split; [repeat split; left; reflexivity|]. discriminate. Qed.

(** What the task's code itself logs with the task's logger, without an action, is
    an error in the scheduler. *)
Theorem c81_own_refuted : forall percent show r, as_logged r -> r_action r = None -> carried percent show r = Err AttributeError.
Proof. exact carried_own. Qed.
Print Assumptions c81_own_refuted.

Example c81_own_met : as_logged (LRec [72; 105] None None NoInfo None None None 8).
Proof. repeat split. left. reflexivity. Qed.
