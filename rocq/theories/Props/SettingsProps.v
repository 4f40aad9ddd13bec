(** C71: the settings given are those that are used. *)
From Coq Require Import String.
From Verif Require Import Model.Base Model.Settings Spec.SettingsSpec Proofs.SettingsProofs Proofs.SettingsExamples.
Local Open Scope string_scope.
Local Open Scope list_scope.

(** Settings of the right types are accepted, in a dict, as keywords or some so and some so *)
Theorem c71_accepted : forall coerce cpus w src kw, settings_given src kw -> well_typed cpus src kw ->
  exists w', sstep coerce cpus w (OSession src kw) = Ok w'.
Proof. exact typed_made. Qed.
Print Assumptions c71_accepted.
Example c71_accepted_met :
  settings_given (FromDict [("multilaunch", VBool true); ("task_execution", VText "thread")]) [("timeout", VTime 1)] /\
  well_typed 4 (FromDict [("multilaunch", VBool true); ("task_execution", VText "thread")]) [("timeout", VTime 1)].
Proof.
  split.
  - right. eexists. split; [reflexivity|]. intros k v [H|[]]. injection H as <- <-. reflexivity.
  - intros f v I [H|[H G]].
    + cbn in I. intuition subst; cbn in H; try discriminate H; injection H as <-; reflexivity.
    + cbn in I. intuition subst; try discriminate H; cbn in G; injection G as <-; reflexivity.
Qed.

(** The value that is given is that of the session, the default if none is, until it is set to another *)
Theorem c71_given : forall coerce cpus ops1 src kw o w ops2 f,
  settings_given src kw -> o = OSession src kw \/ o = OApp None src kw ->
  sstep coerce cpus (sdo coerce cpus no_sessions ops1) o = Ok w ->
  In f (config_fields cpus) -> f_name f <> "execution" ->
  let s := List.length (w_sessions (sdo coerce cpus no_sessions ops1)) in
  (forall o s', In o ops2 -> sets o = Some (s', f_name f) -> ~ shares (sdo coerce cpus w ops2) s s') ->
  (forall v, given src kw (f_name f) = Some v -> fits (f_kind f) v = true ->
     setting (sdo coerce cpus w ops2) s (f_name f) = Some (taken_as (f_name f) v)) /\
  (given src kw (f_name f) = None -> setting (sdo coerce cpus w ops2) s (f_name f) = Some (f_default f)).
Proof. exact given_settings. Qed.
Print Assumptions c71_given.
Theorem c71_execution : forall coerce cpus ops1 src kw o w ops2,
  settings_given src kw -> o = OSession src kw \/ o = OApp None src kw ->
  sstep coerce cpus (sdo coerce cpus no_sessions ops1) o = Ok w ->
  let s := List.length (w_sessions (sdo coerce cpus no_sessions ops1)) in
  (forall o s', In o ops2 -> sets o = Some (s', "execution") -> ~ shares (sdo coerce cpus w ops2) s s') ->
  let e := setting (sdo coerce cpus w ops2) s "execution" in
  (forall x, given src kw "execution" = Some (VText x) -> given src kw "task_execution" = None -> e = Some (VText x)) /\
  (forall x, given src kw "task_execution" = Some (VText x) -> e = Some (VText x)) /\
  (given src kw "task_execution" = None -> given src kw "execution" = None -> e = Some (VText "async")).
Proof. exact given_execution. Qed.
Print Assumptions c71_execution.
(** A second session is made, its settings are changed, it is run *)
Example c71_given_met :
  let first := [("max_process_count", VInt 2); ("execution", VText "process")] in
  exists w, sstep strict 4 no_sessions (OApp None (FromDict first) [("shut_cond", VNone)]) = Ok w /\
  let later := [OSession FromNone []; OSet 1 "max_process_count" (VInt 9); ORun 0 true] in
  (forall o s', In o later -> sets o = Some (s', "max_process_count") -> ~ shares (sdo strict 4 w later) 0 s') /\
  setting (sdo strict 4 w later) 0 "max_process_count" = Some (VInt 2) /\
  setting (sdo strict 4 w later) 1 "max_process_count" = Some (VInt 9) /\
  setting (sdo strict 4 w later) 0 "execution" = Some (VText "process") /\
  setting (sdo strict 4 w later) 1 "execution" = Some (VText "async") /\
  setting (sdo strict 4 w later) 0 "shut_cond" = Some always_false /\
  setting (sdo strict 4 w later) 0 "cycle_sleep" = Some tenth.
Proof.
  eexists. split; [vm_compute; reflexivity|]. cbn zeta. split.
  - intros o s' [<- |[<- |[<- |[]]]] H; try discriminate H. injection H as <-. vm_compute. discriminate.
  - repeat split; vm_compute; reflexivity.
Qed.

(** Every session has every setting *)
Theorem c71_all : forall coerce cpus ops s f, (s < List.length (w_sessions (sdo coerce cpus no_sessions ops)))%nat ->
  In f (config_fields cpus) -> exists v, setting (sdo coerce cpus no_sessions ops) s (f_name f) = Some v.
Proof. exact all_settings. Qed.
Print Assumptions c71_all.
Example c71_all_met : (1 < List.length (w_sessions (sdo strict 4 no_sessions [OConfig []; OSession (FromConfig 0) []; OSession FromNone []])))%nat.
Proof. vm_compute. repeat constructor. Qed.

(** A setting can not be given both ways *)
Theorem c71_twice : forall coerce cpus w d kw k u v, In (k, u) kw -> sget d k = Some v ->
  sstep coerce cpus w (OSession (FromDict d) kw) = Err TypeError.
Proof. exact given_twice. Qed.
Print Assumptions c71_twice.
Example c71_twice_met : In ("multilaunch", VBool true) [("multilaunch", VBool true)] /\
  sget [("debug", VBool true); ("multilaunch", VBool true)] "multilaunch" = Some (VBool true).
Proof. split; [left; reflexivity|reflexivity]. Qed.

(** A setting that is set later has that value until it is set again *)
Theorem c71_later : forall coerce cpus ops1 s f v ops2 w,
  sstep coerce cpus (sdo coerce cpus no_sessions ops1) (OSet s (f_name f) v) = Ok w ->
  In f (config_fields cpus) -> f_name f <> "execution" \/ v <> VNone -> fits (f_kind f) v = true ->
  (forall o s', In o ops2 -> sets o = Some (s', f_name f) -> ~ shares (sdo coerce cpus w ops2) s s') ->
  setting (sdo coerce cpus w ops2) s (f_name f) = Some (taken_as (f_name f) v).
Proof. exact last_set. Qed.
Print Assumptions c71_later.
Example c71_later_met : exists w,
  sstep strict 4 (sdo strict 4 no_sessions [OSession FromNone []]) (OSet 0 "execution" (VText "main")) = Ok w /\
  setting (sdo strict 4 w [OSet 0 "timeout" (VTime 5); OTask 0 []; OSession FromNone []]) 0 "execution" = Some (VText "main").
Proof. eexists. split; [vm_compute; reflexivity|]. vm_compute. reflexivity. Qed.

(** Sessions made without a Config object do not change each other's settings *)
Theorem c71_apart : forall coerce cpus ops o s s' k k', own_configs ops ->
  let w := sdo coerce cpus no_sessions ops in
  (s < List.length (w_sessions w))%nat -> sets o = Some (s', k) -> s <> s' ->
  setting (sdone coerce cpus w o) s k' = setting w s k'.
Proof. exact own_apart. Qed.
Print Assumptions c71_apart.
Example c71_apart_met : own_configs [OSession FromNone []; OApp None (FromDict [("debug", VBool true)]) []] /\
  (0 < List.length (w_sessions (sdo strict 4 no_sessions [OSession FromNone []; OApp None (FromDict [("debug", VBool true)]) []])))%nat /\
  sets (ORun 1 false) = Some (1%nat, "debug").
Proof.
  split; [|split; [vm_compute; repeat constructor|reflexivity]].
  intros o [<- |[<- |[]]]; exact I.
Qed.
Theorem c71_shared_refuted : exists ops s s' w, s <> s' /\
  sstep strict 4 (sdo strict 4 no_sessions ops) (OSet s "max_process_count" (VInt 1)) = Ok w /\
  setting (sdo strict 4 no_sessions ops) s' "max_process_count" = Some (VInt 4) /\
  setting w s' "max_process_count" = Some (VInt 1).
Proof. exact shared_config. Qed.
Print Assumptions c71_shared_refuted.

(** A task goes by its own option, or else by the setting its session has then *)
Theorem c71_task : forall coerce cpus ops1 s opts w ops2,
  sstep coerce cpus (sdo coerce cpus no_sessions ops1) (OTask s opts) = Ok w ->
  exists t, nth_error (w_tasks (sdo coerce cpus w ops2)) (List.length (w_tasks (sdo coerce cpus no_sessions ops1))) = Some t /\
  forall k k' view, In (k, k', view) stand_ins ->
    (forall v, sget opts k = Some v -> fits_option k v -> v <> VNone -> v <> VTime 0 ->
       view (sdo coerce cpus w ops2) t = Some v) /\
    (sget opts k = None \/ sget opts k = Some VNone ->
       view (sdo coerce cpus w ops2) t = setting (sdo coerce cpus w ops2) s k' /\
       exists v, setting (sdo coerce cpus w ops2) s k' = Some v).
Proof. exact task_goes_by. Qed.
Print Assumptions c71_task.
(** The task has an execution of its own and not one of the other options; the settings are changed after it was made *)
Example c71_task_met : exists w t,
  sstep strict 4 (sdo strict 4 no_sessions [OSession FromNone []]) (OTask 0 [("execution", VText "process"); ("daemon", VNone)]) = Ok w /\
  let later := [OSet 0 "tasks_as_daemon" (VBool false); OSet 0 "execution" (VText "main"); OSet 0 "timeout" (VTime 7)] in
  nth_error (w_tasks (sdo strict 4 w later)) 0 = Some t /\
  task_execution (sdo strict 4 w later) t = Some (VText "process") /\
  task_daemon (sdo strict 4 w later) t = Some (VBool false) /\
  Settings.task_timeout (sdo strict 4 w later) t = Some (VTime 7) /\
  task_run_id (sdo strict 4 w later) t = Some uuid.
Proof. do 2 eexists. split; [vm_compute; reflexivity|]. cbn zeta. repeat split; vm_compute; reflexivity. Qed.
(** ... but with no time at all for its timeout it goes by the setting, *)
Theorem c71_timeout_refuted : exists ops w t,
  sstep strict 4 (sdo strict 4 no_sessions ops) (OTask 0 [("timeout", VTime 0)]) = Ok w /\
  nth_error (w_tasks w) 0 = Some t /\ Settings.task_timeout w t = Some half_an_hour.
Proof. exact no_time. Qed.
Print Assumptions c71_timeout_refuted.
(** the priority set for tasks is that of no task, *)
Theorem c71_priority_refuted : forall coerce cpus ops1 s opts w ops2, sget opts "priority" = None ->
  sstep coerce cpus (sdo coerce cpus no_sessions ops1) (OTask s opts) = Ok w ->
  exists t, nth_error (w_tasks (sdo coerce cpus w ops2)) (List.length (w_tasks (sdo coerce cpus no_sessions ops1))) = Some t /\
    task_priority (sdo coerce cpus w ops2) t = Some (VInt 0).
Proof. exact no_priority. Qed.
Print Assumptions c71_priority_refuted.
(** and the logger is that of when the task was made. *)
Theorem c71_logger_refuted : forall coerce cpus ops1 s opts base w ops2, sget opts "logger_name" = None ->
  setting (sdo coerce cpus no_sessions ops1) s "task_logger_basename" = Some (VText base) ->
  sstep coerce cpus (sdo coerce cpus no_sessions ops1) (OTask s opts) = Ok w ->
  exists t, nth_error (w_tasks (sdo coerce cpus w ops2)) (List.length (w_tasks (sdo coerce cpus no_sessions ops1))) = Some t /\
    task_logger (sdo coerce cpus w ops2) t = Some (VText base).
Proof. exact logger_fixed. Qed.
Print Assumptions c71_logger_refuted.
(** The session asks for priority 5 and later for other loggers *)
Example c71_logger_met :
  let before := [OSession FromNone [("task_priority", VInt 5)]] in
  let later := [OSet 0 "task_logger_basename" (VText "mine")] in
  exists w, sstep strict 4 (sdo strict 4 no_sessions before) (OTask 0 []) = Ok w /\
    setting (sdo strict 4 no_sessions before) 0 "task_logger_basename" = Some (VText "rocketry.task") /\
    setting (sdo strict 4 w later) 0 "task_priority" = Some (VInt 5) /\
    setting (sdo strict 4 w later) 0 "task_logger_basename" = Some (VText "mine").
Proof. eexists. split; [vm_compute; reflexivity|]. repeat split; vm_compute; reflexivity. Qed.

(** Names that are not settings are refused when set later ... *)
Theorem c71_misspelt_set : forall coerce cpus w s k v, ~ is_setting cpus k \/ k = "task_execution" ->
  (s < List.length (w_sessions w))%nat -> sstep coerce cpus w (OSet s k v) = Err ValueError.
Proof. exact unknown_set. Qed.
Print Assumptions c71_misspelt_set.
Example c71_misspelt_met : ~ is_setting 4 "max_proces_count" /\ ~ is_option "exection".
Proof. split; [intros [H|H]; [cbn in H; intuition discriminate|discriminate H]|intros H; cbn in H; intuition discriminate]. Qed.
(** ... but not when given with the session, where it is as if they were not given; likewise options of tasks *)
Theorem c71_misspelt_refuted : forall coerce cpus w kw k v, ~ is_setting cpus k ->
  sstep coerce cpus w (OSession FromNone (kw ++ [(k, v)])) = sstep coerce cpus w (OSession FromNone kw) /\
  sstep coerce cpus w (OSession (FromDict (kw ++ [(k, v)])) []) = sstep coerce cpus w (OSession (FromDict kw) []).
Proof. exact unknown_setting. Qed.
Print Assumptions c71_misspelt_refuted.
Theorem c71_option_refuted : forall coerce cpus w s opts k v, ~ is_option k ->
  sstep coerce cpus w (OTask s (opts ++ [(k, v)])) = sstep coerce cpus w (OTask s opts).
Proof. exact unknown_option. Qed.
Print Assumptions c71_option_refuted.

(** Keywords beside a Config object, or beside a session in an application, are not looked at *)
Theorem c71_object_refuted : forall coerce cpus w i kw,
  sstep coerce cpus w (OSession (FromConfig i) kw) = sstep coerce cpus w (OSession (FromConfig i) []).
Proof. exact object_only. Qed.
Print Assumptions c71_object_refuted.
Theorem c71_app_refuted : forall coerce cpus w s src kw, (s < List.length (w_sessions w))%nat ->
  sstep coerce cpus w (OApp (Some s) src kw) = Ok w.
Proof. exact app_ignores. Qed.
Print Assumptions c71_app_refuted.
Example c71_app_met : (0 < List.length (w_sessions (sdo strict 4 no_sessions [OSession FromNone []])))%nat.
Proof. vm_compute. repeat constructor. Qed.

(** Of the two names of one setting the deprecated one counts *)
Theorem c71_deprecated_refuted : forall coerce cpus w src kw w' s, settings_given src kw ->
  sstep coerce cpus w (OSession src kw) = Ok w' -> given src kw "task_execution" = Some (VText s) ->
  setting w' (List.length (w_sessions w)) "execution" = Some (VText s).
Proof. exact deprecated_wins. Qed.
Print Assumptions c71_deprecated_refuted.
Example c71_deprecated_met : exists w',
  sstep strict 4 no_sessions (OSession FromNone [("task_execution", VText "main"); ("execution", VText "process")]) = Ok w'.
Proof. eexists. vm_compute. reflexivity. Qed.

(** A misspelt execution is accepted of a session; its tasks are never started and nothing is said *)
Theorem c71_nothing_refuted : exists w w' t e,
  sstep strict 4 no_sessions (OApp None FromNone [("execution", VText "proces")]) = Ok w /\
  sstep strict 4 w (OTask 0 []) = Ok w' /\ nth_error (w_tasks w') 0 = Some t /\
  task_execution w' t = Some e /\ call e = CNothing.
Proof. exact nothing_started. Qed.
Print Assumptions c71_nothing_refuted.
