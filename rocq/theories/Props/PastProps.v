(** C65: conditions on what tasks have done. *)
From Coq Require Import List Bool ZArith.
From Verif Require Import Model.Base Model.Interval Model.Calendar Model.Anchored Model.Period Model.Condition Model.History Model.Past
  Model.Running Spec.ConditionSpec Spec.PeriodSpec Spec.HistorySpec Spec.RunningSpec Spec.PastSpec
  Proofs.PastProofs Proofs.PastExamples.
Import ListNotations.
Local Open Scope Z_scope.
Local Open Scope list_scope.

(** [started], [succeeded], [failed] and [finished] without a period count what the task has ever
    done, with either setting of force_status_from_logs in either session.  Missing: tasks whose
    own start condition is a TaskSucceeded or TaskFinished object (they raise, below). *)
Theorem c65_ever_partial : forall dforce own l tasks current cs w named fuel now t,
  NoDup (map fst cs) -> meant tasks current named t -> trusted own l t -> plain_start (pt_start t) -> dated l (pt_name t) now ->
  exists b, past_observe dforce own l tasks current (as_comps cs) w named past_ever fuel now = Returns b /\
    (b = true <-> meets cs (ever l (pt_name t) (watched_list w))).
Proof. exact ever_says. Qed.
Print Assumptions c65_ever_partial.

Example c65_ever_met :
  let t := ex_past (StartAll [PartSucceeded; PartOther]) in
  NoDup (map fst [(OpGe, 1); (OpLt, 2)]) /\ meant [ex_other; t] (Some ex_other) (Some 1) t /\
  meant [ex_other; t] (Some t) None t /\
  trusted false ex_log t /\ trusted true ex_log t /\ plain_start (pt_start t) /\ dated ex_log 1 (ex_moment + 10) /\
  past_observe false false ex_log [ex_other; t] (Some ex_other) [] w_succeeded (Some 1) past_ever 1 (ex_moment + 10) = Returns true /\
  past_observe false true ex_log [ex_other; t] (Some t) [] w_finished None past_ever 1 (ex_moment + 10) = Returns true /\
  past_observe true true ex_log [ex_other; t] (Some ex_other) (as_comps [(OpGe, 1); (OpLt, 2)]) w_finished (Some 1) past_ever 1 (ex_moment + 10) = Returns true /\
  past_observe true false ex_log [ex_other; t] (Some ex_other) [] w_failed (Some 1) past_ever 1 (ex_moment + 10) = Returns false.
Proof.
  split; [repeat constructor; cbn; intuition discriminate|]. split; [apply ex_meant|]. split; [reflexivity|].
  split; [apply ex_trusted|]. split; [apply ex_trusted_log|].
  split; [intros [H|[H|[]]]; discriminate H|].
  split; [apply ex_dated; vm_compute; split; congruence|].
  split; [vm_compute; reflexivity|]. split; [vm_compute; reflexivity|]. split; vm_compute; reflexivity.
Qed.

(** [.this_minute], [.this_hour], [.today], [.this_week] and [.this_month]: what the task has done
    since the minute, hour, day, week or month began.  Missing: the very moment it begins (below). *)
Theorem c65_this_partial : forall u k dforce own l tasks current cs w named fuel now t,
  NoDup (map fst cs) -> meant tasks current named t -> trusted own l t ->
  unit_begin u k < now < unit_begin u (k + 1) ->
  exists b, past_observe dforce own l tasks current (as_comps cs) w named (past_this (unit_class u)) fuel now = Returns b /\
    (b = true <-> meets cs (times l (pt_name t) (watched_list w) (unit_begin u k) now)).
Proof. exact this_says. Qed.
Print Assumptions c65_this_partial.

Example c65_this_met :
  let t := ex_past (StartOne PartSucceeded) in
  let now := mk_datetime 2024 5 2 9 0 0 0 in
  meant [ex_other; t] (Some ex_other) (Some 1) t /\ trusted false ex_log t /\
  unit_begin ThisDay (now / us_day) < now < unit_begin ThisDay (now / us_day + 1) /\
  unit_begin ThisMonth (2024 * 12 + 4) < now < unit_begin ThisMonth (2024 * 12 + 5) /\
  past_observe false false ex_log [ex_other; t] (Some ex_other) [] w_succeeded (Some 1) (past_this TDay) 1 now = Returns false /\
  past_observe false false ex_log [ex_other; t] (Some ex_other) [] w_succeeded (Some 1) (past_this TWeek) 1 now = Returns true /\
  past_observe false false ex_log [ex_other; t] (Some ex_other) [] w_succeeded (Some 1) (past_this TMonth) 1 now = Returns true.
Proof.
  split; [apply ex_meant|]. split; [apply ex_trusted|]. split; [vm_compute; split; reflexivity|].
  split; [vm_compute; split; reflexivity|]. split; [vm_compute; reflexivity|]. split; vm_compute; reflexivity.
Qed.

(** A condition about a task the session does not have, or about the task itself where there is
    none (as in the session's shut_cond), raises. *)
Theorem c65_unknown : forall dforce own l tasks current c w n period fuel now,
  (forall t, In t tasks -> pt_name t <> n) ->
  past_observe dforce own l tasks current c w (Some n) period fuel now = Raises KeyError.
Proof. exact unknown_raises. Qed.
Print Assumptions c65_unknown.

Theorem c65_no_task : forall dforce own l tasks c w fuel now,
  past_observe dforce own l tasks None c w None past_ever fuel now = Raises AttributeError.
Proof. exact nobody_raises. Qed.
Print Assumptions c65_no_task.

Example c65_unknown_met : (forall t, In t [ex_other; ex_past (StartOne PartOther)] -> pt_name t <> 3).
Proof. intros t [<- |[<- |[]]]; discriminate. Qed.

(** C65 fails when the task has a TaskSucceeded or TaskFinished object as its start condition, or an All
    with a TaskFinished: the condition without a period raises AttributeError instead of answering. *)
Theorem c65_raises_refuted : forall dforce own l tasks current c w named fuel now t, meant tasks current named t ->
  ~ plain_start (pt_start t) ->
  past_observe dforce own l tasks current c w named past_ever fuel now = Raises AttributeError.
Proof. exact awkward_raises. Qed.
Print Assumptions c65_raises_refuted.

Example c65_raises_met :
  let t := ex_past (StartAll [PartOther; PartFinished]) in
  meant [ex_other; t] (Some ex_other) (Some 1) t /\ ~ plain_start (pt_start t) /\ trusted false ex_log t /\ dated ex_log 1 (ex_moment + 10).
Proof.
  split; [apply ex_meant|]. split; [intros H; apply H; right; now left|].
  split; [apply ex_trusted|apply ex_dated; vm_compute; split; congruence].
Qed.

(** At the very moment a minute, hour, day, week or month begins the one before is looked at; *)
Theorem c65_boundary : forall u k dforce own l tasks current cs w named fuel t,
  NoDup (map fst cs) -> meant tasks current named t -> trusted own l t -> unit_begin u k < unit_begin u (k + 1) ->
  exists b, past_observe dforce own l tasks current (as_comps cs) w named (past_this (unit_class u)) fuel (unit_begin u (k + 1)) = Returns b /\
    (b = true <-> meets cs (times l (pt_name t) (watched_list w) (unit_begin u k) (unit_begin u (k + 1)))).
Proof. exact boundary_says. Qed.
Print Assumptions c65_boundary.

Example c65_boundary_met :
  let t := ex_past (StartOne PartSucceeded) in let k := mk_datetime 2024 5 1 0 0 0 0 / us_day in
  meant [ex_other; t] (Some ex_other) (Some 1) t /\ trusted false ex_log t /\ unit_begin ThisDay k < unit_begin ThisDay (k + 1) /\
  past_observe false false ex_log [ex_other; t] (Some ex_other) [] w_succeeded (Some 1) (past_this TDay) 1 (unit_begin ThisDay (k + 1)) = Returns true /\
  past_observe false false ex_log [ex_other; t] (Some ex_other) [] w_succeeded (Some 1) (past_this TDay) 1 (unit_begin ThisDay (k + 2)) = Returns false.
Proof.
  split; [apply ex_meant|]. split; [apply ex_trusted|]. split; [vm_compute; reflexivity|]. split; vm_compute; reflexivity.
Qed.

(** so at midnight succeeded("x").today is true of a task that succeeded the day before only; *)
Theorem c65_boundary_refuted : exists u k l tasks t fuel,
  meant tasks None (Some 1) t /\ trusted false l t /\ dated l 1 (unit_begin u k) /\
  times l 1 [ASuccess] (unit_begin u k) (unit_begin u k) = 0 /\
  past_observe false false l tasks None [] w_succeeded (Some 1) (past_this (unit_class u)) fuel (unit_begin u k) = Returns true.
Proof. exact boundary_wrong. Qed.
Print Assumptions c65_boundary_refuted.

(** and at nine succeeded("x").today.between("10:00", "12:00") is true of a task that succeeded at eleven
    the day before, and not yet today. *)
Theorem c65_today_refuted : exists p k now l tasks t fuel,
  past_this_between TDay (Some (VClock (10 * us_hour))) (Some (VClock (12 * us_hour))) = Ok p /\
  unit_begin ThisDay k < now < unit_begin ThisDay (k + 1) /\
  meant tasks None (Some 1) t /\ trusted false l t /\ dated l 1 now /\
  times l 1 [ASuccess] (unit_begin ThisDay k) now = 0 /\
  past_observe false false l tasks None [] w_succeeded (Some 1) (Some p) fuel now = Returns true.
Proof. exact part_wrong. Qed.
Print Assumptions c65_today_refuted.
