(** C62, C63: conditions on running tasks and on the scheduler. *)
From Coq Require Import List Bool ZArith.
From Verif Require Import Model.Base Model.Interval Model.Period Model.Condition Model.History Model.Running
  Spec.ConditionSpec Spec.RunningSpec Proofs.RunningProofs Proofs.RunningResults Proofs.RunningExamples.
Import ListNotations.
Local Open Scope Z_scope.
Local Open Scope list_scope.

(** ** C62 *)

(** From the run stack: the condition compares the number of runs that are alive and began when
    asked for.  Runs that have ended may or may not still be in the stack. *)
Theorem c62_stack : forall stack runs f now fuel cs ids l name, form_ok f now ->
  stack_tells stack runs -> (forall st, In st runs -> happened now st) ->
  exists b, running_observe false ids (as_comps cs) stack l name fuel (form_period f) now = Returns b /\
    (b = true <-> meets cs (how_many (fun st => alive st && wanted f now st) runs)).
Proof. exact stack_count. Qed.
Print Assumptions c62_stack.

Example c62_stack_nonvacuous : form_ok (Between 100 800) ex_now /\ stack_tells ex_stack ex_runs /\
  (forall st, In st ex_runs -> happened ex_now st) /\
  running_observe false true (as_comps [(OpEq, 1)]) ex_stack [] 1 5 (form_period (Between 100 800)) ex_now = Returns true /\
  running_observe false true (as_comps [(OpEq, 2)]) ex_stack [] 1 5 (form_period Running) ex_now = Returns true /\
  running_observe false true [] ex_stack [] 1 5 (form_period (MoreThan 700)) ex_now = Returns false.
Proof. split; [exact (proj1 ex_form)|split; [exact ex_stack_tells|split; [exact ex_happened|vm_compute; repeat split; reflexivity]]]. Qed.

(** From a log with run ids: the same for [running] and [running.less_than] ... *)
Theorem c62_log : forall l runs f now fuel cs stack name, form_ok f now ->
  match f with Running | LessThan _ => True | _ => False end ->
  log_tells true l name runs -> (forall st, In st runs -> happened now st) ->
  exists b, running_observe true true (as_comps cs) stack l name fuel (form_period f) now = Returns b /\
    (b = true <-> meets cs (how_many (fun st => alive st && wanted f now st) runs)).
Proof. exact log_now. Qed.
Print Assumptions c62_log.

(** ... for [running.more_than] and [running.between] it is the runs that had not ended by the end
    of the window, which lies that far back.  *)
Theorem c62_log_exact : forall l runs f now fuel cs stack name, form_ok f now ->
  log_tells true l name runs -> (forall st, In st runs -> happened now st) ->
  exists b, running_observe true true (as_comps cs) stack l name fuel (form_period f) now = Returns b /\
    (b = true <-> meets cs (how_many (fun st => wanted f now st && going_at (latest_start f now) st) runs)).
Proof. exact log_exact. Qed.
Print Assumptions c62_log_exact.

(** So the answer is right if no run ended after the window.  Missing: the runs that did. *)
Theorem c62_log_settled_partial : forall l runs f now fuel cs stack name, form_ok f now ->
  log_tells true l name runs -> (forall st, In st runs -> happened now st) ->
  (forall st a t, In st runs -> s_end st = Some (a, t) -> t <= latest_start f now) ->
  exists b, running_observe true true (as_comps cs) stack l name fuel (form_period f) now = Returns b /\
    (b = true <-> meets cs (how_many (fun st => alive st && wanted f now st) runs)).
Proof. exact log_settled. Qed.
Print Assumptions c62_log_settled_partial.

Example c62_log_nonvacuous : form_ok (LessThan 100) ex_now /\ form_ok (MoreThan 100) ex_now /\
  log_tells true (ex_log true) 1 ex_runs /\ (forall st, In st ex_runs -> happened ex_now st) /\
  (forall st a t, In st ex_runs -> s_end st = Some (a, t) -> t <= latest_start (MoreThan 100) ex_now) /\
  running_observe true true (as_comps [(OpEq, 1)]) [] (ex_log true) 1 5 (form_period (LessThan 100)) ex_now = Returns true /\
  running_observe true true (as_comps [(OpEq, 1)]) [] (ex_log true) 1 5 (form_period (MoreThan 100)) ex_now = Returns true /\
  running_observe true true (as_comps [(OpEq, 2)]) [] (ex_log true) 1 5 (form_period Running) ex_now = Returns true.
Proof.
  split; [exact (proj1 (proj2 (proj2 ex_form)))|split; [exact (proj1 (proj2 ex_form))|split; [exact (ex_log_tells true)|]]].
  split; [exact ex_happened|split; [exact ex_ended|vm_compute; repeat split; reflexivity]].
Qed.

(** Records without run ids suffice for [running] ... *)
Theorem c62_no_ids : forall l runs now fuel cs stack name, form_ok Running now ->
  log_tells false l name runs -> (forall st, In st runs -> happened now st) ->
  exists b, running_observe true false (as_comps cs) stack l name fuel (form_period Running) now = Returns b /\
    (b = true <-> meets cs (how_many alive runs)).
Proof. exact guess_now. Qed.
Print Assumptions c62_no_ids.

(** ... and for the other forms if no run ended after the window, or in it having begun before.
    Missing: those runs. *)
Theorem c62_no_ids_partial : forall l runs f now fuel cs stack name, form_ok f now ->
  log_tells false l name runs -> (forall st, In st runs -> happened now st) ->
  (forall st a t, In st runs -> s_end st = Some (a, t) ->
     t <= latest_start f now /\ (t < earliest f now \/ earliest f now <= s_began st)) ->
  exists b, running_observe true false (as_comps cs) stack l name fuel (form_period f) now = Returns b /\
    (b = true <-> meets cs (how_many (fun st => alive st && wanted f now st) runs)).
Proof. exact guess_settled. Qed.
Print Assumptions c62_no_ids_partial.

Example c62_no_ids_nonvacuous : form_ok Running ex_now /\ log_tells false (ex_log false) 1 ex_runs /\
  (forall st, In st ex_runs -> happened ex_now st) /\
  (forall st a t, In st ex_runs -> s_end st = Some (a, t) ->
     t <= latest_start (Between 100 650) ex_now /\
     (t < earliest (Between 100 650) ex_now \/ earliest (Between 100 650) ex_now <= s_began st)) /\
  running_observe true false (as_comps [(OpEq, 2)]) [] (ex_log false) 1 5 (form_period Running) ex_now = Returns true /\
  running_observe true false (as_comps [(OpEq, 1)]) [] (ex_log false) 1 5 (form_period (Between 100 650)) ex_now = Returns true.
Proof.
  split; [exact (proj2 (proj2 (proj2 ex_form)))|split; [exact (ex_log_tells false)|split; [exact ex_happened|]]].
  split; [exact ex_ended_window|vm_compute; repeat split; reflexivity].
Qed.

(** [running.more_than(d)] read from the log holds while the task does not run, if a run ended
    within the last [d]. *)
Theorem c62_more_than_refuted : forall id name began ended d now fuel stack,
  p_min <= began <= now - d -> 0 <= d -> now - d < ended <= now -> now <= p_max ->
  let runs := [Story id began (Some (ASuccess, ended))] in
  let l := flat_map (written true name) runs in
  log_tells true l name runs /\ (forall st, In st runs -> happened now st) /\ how_many alive runs = 0 /\
  running_observe true true [] stack l name fuel (form_period (MoreThan d)) now = Returns true.
Proof. exact lately_ended. Qed.
Print Assumptions c62_more_than_refuted.

(** Without run ids, [running.less_than(d)] misses a run that goes on, if an earlier one ended
    after it began. *)
Theorem c62_overlap_refuted : forall id id' name began ended began' d now fuel stack, id <> id' ->
  p_min <= began -> began < now - d -> now - d <= began' -> began' <= ended -> ended <= now -> 0 <= d -> now <= p_max ->
  let runs := [Story id began (Some (ASuccess, ended)); Story id' began' None] in
  let l := flat_map (written false name) runs in
  log_tells false l name runs /\ (forall st, In st runs -> happened now st) /\
  how_many (fun st => alive st && wanted (LessThan d) now st) runs = 1 /\
  running_observe true false [] stack l name fuel (form_period (LessThan d)) now = Returns false.
Proof. exact overlapping. Qed.
Print Assumptions c62_overlap_refuted.

(** A run cut off by a crash of the scheduler counts as running for ever after, though the task is
    given the status crashed at the next start: the record of the crash bears no run id. *)
Theorem c62_crash_refuted : forall id name began t_now t_rec now stack fuel,
  p_min <= began <= t_now -> t_now <= t_rec <= now -> now <= p_max ->
  exists st l, set_cached fresh_state [Rec name ARun began (Some id)] name t_now t_rec true = (st, l, Ok tt) /\
    ts_status st = Some ACrash /\ running_observe true true [] stack l name fuel (form_period Running) now = Returns true.
Proof. exact crashed_runs_on. Qed.
Print Assumptions c62_crash_refuted.

Example c62_refuted_nonvacuous :
  (p_min <= ex_now - 900 <= ex_now - 100 /\ ex_now - 100 < ex_now - 50 <= ex_now /\ ex_now <= p_max) /\
  (ex_now - 900 < ex_now - 100 /\ ex_now - 100 <= ex_now - 80 /\ ex_now - 80 <= ex_now - 50).
Proof. vm_compute. repeat split; congruence. Qed.

(** [running.between(a, b)] with the bounds the wrong way round is refused when asked. *)
Theorem c62_between_reversed : forall force ids c stack l name fuel a b now, 0 <= b < a ->
  running_observe force ids c stack l name fuel (form_period (Between a b)) now = Raises ValueError.
Proof. exact between_reversed. Qed.
Print Assumptions c62_between_reversed.

Example c62_between_reversed_nonvacuous : 0 <= 100 < 800 /\
  running_observe false true [] ex_stack [] 1 5 (form_period (Between 800 100)) ex_now = Raises ValueError.
Proof. vm_compute. repeat split; congruence. Qed.

(** ** C63 *)

(** [scheduler_cycles(more_than, less_than)]: both bounds are strict; without any, whether there
    has been a cycle. *)
Theorem c63_cycles : forall more_than less_than n, exists b,
  cycles_observe (cycles_comps more_than less_than) (Some n) = Returns b /\
  (b = true <-> above more_than n /\ below less_than n /\ (more_than = None -> less_than = None -> 0 < n)).
Proof. exact cycles_say. Qed.
Print Assumptions c63_cycles.

Example c63_cycles_nonvacuous :
  cycles_observe (cycles_comps (Some 3) (Some 10)) (Some 3) = Returns false /\
  cycles_observe (cycles_comps (Some 3) (Some 10)) (Some 4) = Returns true /\
  cycles_observe (cycles_comps (Some 3) (Some 10)) (Some 10) = Returns false /\
  cycles_observe (cycles_comps None None) (Some 0) = Returns false.
Proof. repeat split; reflexivity. Qed.

(** [scheduler_running(more_than, less_than)]: how long ago the scheduler started, both bounds
    included. *)
Theorem c63_running : forall more_than less_than fuel started now,
  match more_than, less_than with
  | Some m, Some k => 0 <= m <= k
  | Some m, None => 0 <= m /\ p_min <= now - m
  | None, Some k => 0 <= k
  | None, None => p_min <= now
  end ->
  p_min <= started <= now -> exists b,
  started_observe fuel (scheduler_period more_than less_than) (Some started) now = Returns b /\
  (b = true <-> at_least more_than (now - started) /\ at_most less_than (now - started)).
Proof. exact started_say. Qed.
Print Assumptions c63_running.

(** The sentence 'scheduler started d ago' is whether that was within the last [d]; 'scheduler has
    run over d' is its negation. *)
Theorem c63_started : forall d fuel started now, 0 <= d -> started <= now -> exists b,
  started_observe fuel (Some (mk_delta (Some d) None None)) (Some started) now = Returns b /\
  (b = true <-> now - started <= d).
Proof. exact started_within. Qed.
Print Assumptions c63_started.

Example c63_running_nonvacuous : (0 <= 100 <= 800 /\ p_min <= ex_now - 500 <= ex_now) /\
  started_observe 5 (scheduler_period (Some 100) (Some 800)) (Some (ex_now - 500)) ex_now = Returns true /\
  started_observe 5 (scheduler_period (Some 100) (Some 800)) (Some (ex_now - 801)) ex_now = Returns false /\
  started_observe 5 (Some (mk_delta (Some 100) None None)) (Some (ex_now - 500)) ex_now = Returns false /\
  started_observe 5 (Some (mk_delta (Some 500) None None)) (Some (ex_now - 500)) ex_now = Returns true.
Proof. vm_compute. repeat split; congruence. Qed.

(** Before the scheduler has started, asking raises an error instead of saying no. *)
Theorem c63_not_started_refuted : forall c more_than less_than fuel now,
  cycles_observe c None = Raises AttributeError /\
  exists x, started_observe fuel (scheduler_period more_than less_than) None now = Raises x.
Proof. exact not_started. Qed.
Print Assumptions c63_not_started_refuted.
