(** Cases of settings that are not what a user would expect. *)
From Coq Require Import String.
From Verif Require Import Model.Base Model.Settings Spec.SettingsSpec Proofs.SettingsProofs.
Local Open Scope string_scope.
Local Open Scope list_scope.

(** Two sessions with one Config object *)
Lemma shared_config : exists ops s s' w, s <> s' /\
  sstep strict 4 (sdo strict 4 no_sessions ops) (OSet s "max_process_count" (VInt 1)) = Ok w /\
  setting (sdo strict 4 no_sessions ops) s' "max_process_count" = Some (VInt 4) /\
  setting w s' "max_process_count" = Some (VInt 1).
Proof.
  exists [OConfig []; OSession (FromConfig 0) []; OSession (FromConfig 0) []], 0%nat, 1%nat.
  eexists. split; [discriminate|]. split; [vm_compute; reflexivity|]. split; vm_compute; reflexivity.
Qed.
(** A session with an execution there is not *)
Lemma nothing_started : exists w w' t e,
  sstep strict 4 no_sessions (OApp None FromNone [("execution", VText "proces")]) = Ok w /\
  sstep strict 4 w (OTask 0 []) = Ok w' /\ nth_error (w_tasks w') 0 = Some t /\
  task_execution w' t = Some e /\ call e = CNothing.
Proof. do 4 eexists. split; [vm_compute; reflexivity|]. split; [vm_compute; reflexivity|]. split; [vm_compute; reflexivity|]. split; vm_compute; reflexivity. Qed.
(** A task given no time at all *)
Lemma no_time : exists ops w t, 
  sstep strict 4 (sdo strict 4 no_sessions ops) (OTask 0 [("timeout", VTime 0)]) = Ok w /\
  nth_error (w_tasks w) 0 = Some t /\ Settings.task_timeout w t = Some half_an_hour.
Proof. exists [OSession FromNone []]. do 2 eexists. split; [vm_compute; reflexivity|]. split; vm_compute; reflexivity. Qed.
