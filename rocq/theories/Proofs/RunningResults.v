(** What the conditions about running tasks and the scheduler say. *)
From Coq Require Import List Bool Arith ZArith Permutation Lia ZifyBool.
From Verif Require Import Model.Base Model.Interval Model.Period Model.Condition Model.History Model.Running
  Spec.ConditionSpec Spec.RunningSpec Proofs.RunningProofs.
Import ListNotations.
Local Open Scope Z_scope.
Local Open Scope list_scope.

Lemma ended_going : forall f now e st, happened now st -> earliest f now <= s_began st ->
  (forall x, x <= now -> (x <=? e) = (x <=? latest_start f now)) ->
  negb (ended_in (earliest f now) e st) = going_at (latest_start f now) st.
Proof.
  intros f now e st [B H] L Q. unfold ended_in, going_at. destruct (s_end st) as [[a t]|]; [|reflexivity].
  rewrite Q by lia. lia.
Qed.

(** With run ids the log is read as of the moment the window ends. *)
Theorem log_exact : forall l runs f now fuel cs stack name, form_ok f now ->
  log_tells true l name runs -> (forall st, In st runs -> happened now st) ->
  exists b, running_observe true true (as_comps cs) stack l name fuel (form_period f) now = Returns b /\
    (b = true <-> meets cs (how_many (fun st => wanted f now st && going_at (latest_start f now) st) runs)).
Proof.
  intros l runs f now fuel cs stack name K T H. destruct (span_of fuel f now K) as (e & S & Q).
  unfold running_observe. rewrite S. cbn [obind fst snd]. eexists. split; [reflexivity|]. cbn [comparable_observe].
  rewrite meets_state. rewrite (log_ids_count l name runs _ _ now T H).
  assert (E : filter (fun st => (earliest f now <=? s_began st) && (s_began st <=? e) && negb (ended_in (earliest f now) e st)) runs =
              filter (fun st => wanted f now st && going_at (latest_start f now) st) runs); [|unfold how_many; now rewrite E].
  apply filter_ext_in. intros st I. specialize (H st I). unfold wanted. rewrite (Q (s_began st)) by (destruct H; lia).
  destruct ((earliest f now <=? s_began st)) eqn:W; [|reflexivity]. rewrite (ended_going f now e st H) by (lia || exact Q).
  reflexivity.
Qed.
Lemma alive_now : forall now st, happened now st -> going_at now st = alive st.
Proof. intros now st [_ H]. unfold going_at, alive. destruct (s_end st) as [[a t]|]; [lia|reflexivity]. Qed.
Lemma how_many_ext : forall f g runs, (forall st, In st runs -> f st = g st) -> how_many f runs = how_many g runs.
Proof. intros f g runs H. unfold how_many. now rewrite (filter_ext_in _ _ _ H). Qed.

Theorem log_now : forall l runs f now fuel cs stack name, form_ok f now ->
  match f with Running | LessThan _ => True | _ => False end ->
  log_tells true l name runs -> (forall st, In st runs -> happened now st) ->
  exists b, running_observe true true (as_comps cs) stack l name fuel (form_period f) now = Returns b /\
    (b = true <-> meets cs (how_many (fun st => alive st && wanted f now st) runs)).
Proof.
  intros l runs f now fuel cs stack name K U T H. destruct (log_exact l runs f now fuel cs stack name K T H) as (b & E & B).
  exists b. split; [exact E|]. rewrite B. rewrite (how_many_ext _ (fun st => alive st && wanted f now st)); [reflexivity|].
  intros st I. replace (latest_start f now) with now by (destruct f; [reflexivity|destruct U|reflexivity|destruct U]).
  rewrite (alive_now now st (H st I)). apply andb_comm.
Qed.
Theorem log_settled : forall l runs f now fuel cs stack name, form_ok f now ->
  log_tells true l name runs -> (forall st, In st runs -> happened now st) ->
  (forall st a t, In st runs -> s_end st = Some (a, t) -> t <= latest_start f now) ->
  exists b, running_observe true true (as_comps cs) stack l name fuel (form_period f) now = Returns b /\
    (b = true <-> meets cs (how_many (fun st => alive st && wanted f now st) runs)).
Proof.
  intros l runs f now fuel cs stack name K T H O. destruct (log_exact l runs f now fuel cs stack name K T H) as (b & E & B).
  exists b. split; [exact E|]. rewrite B. rewrite (how_many_ext _ (fun st => alive st && wanted f now st)); [reflexivity|].
  intros st I. assert (G : going_at (latest_start f now) st = alive st); [|rewrite G; apply andb_comm].
  unfold going_at, alive. destruct (s_end st) as [[a t]|] eqn:Q; [|reflexivity]. specialize (O st a t I Q). lia.
Qed.

(** Without run ids. *)
Theorem guess_settled : forall l runs f now fuel cs stack name, form_ok f now ->
  log_tells false l name runs -> (forall st, In st runs -> happened now st) ->
  (forall st a t, In st runs -> s_end st = Some (a, t) -> t <= latest_start f now /\ (t < earliest f now \/ earliest f now <= s_began st)) ->
  exists b, running_observe true false (as_comps cs) stack l name fuel (form_period f) now = Returns b /\
    (b = true <-> meets cs (how_many (fun st => alive st && wanted f now st) runs)).
Proof.
  intros l runs f now fuel cs stack name K T H O. destruct (span_of fuel f now K) as (e & S & Q).
  unfold running_observe. rewrite S. cbn [obind fst snd]. eexists. split; [reflexivity|]. cbn [comparable_observe].
  rewrite meets_state. rewrite (log_guess_count l name runs _ _ now T H).
  - assert (E : filter (fun st => (earliest f now <=? s_began st) && (s_began st <=? e) && negb (ended_in (earliest f now) e st)) runs =
              filter (fun st => alive st && wanted f now st) runs); [|unfold how_many; now rewrite E].
    apply filter_ext_in. intros st I. specialize (H st I). unfold wanted. rewrite (Q (s_began st)) by (destruct H; lia).
    destruct ((earliest f now <=? s_began st)) eqn:W; [|now rewrite andb_false_r]. rewrite (ended_going f now e st H) by (lia || exact Q).
    assert (G : going_at (latest_start f now) st = alive st); [|rewrite G; cbn [andb]; apply andb_comm].
    unfold going_at, alive. destruct (s_end st) as [[a t]|] eqn:X; [|reflexivity]. destruct (O st a t I X). lia.
  - intros st I E. unfold ended_in in E. destruct (s_end st) as [[a t]|] eqn:X; [|discriminate E].
    destruct (O st a t I X). lia.
Qed.
Theorem guess_now : forall l runs now fuel cs stack name, form_ok Running now ->
  log_tells false l name runs -> (forall st, In st runs -> happened now st) ->
  exists b, running_observe true false (as_comps cs) stack l name fuel (form_period Running) now = Returns b /\
    (b = true <-> meets cs (how_many alive runs)).
Proof.
  intros l runs now fuel cs stack name K T H.
  destruct (guess_settled l runs Running now fuel cs stack name K T H) as (b & E & B).
  - intros st a t I X. destruct (H st I) as [B1 B2]. rewrite X in B2. cbn [latest_start earliest]. lia.
  - exists b. split; [exact E|]. rewrite B. rewrite (how_many_ext _ alive); [reflexivity|]. intros st I.
    destruct (H st I) as [B1 _]. unfold wanted. cbn [earliest latest_start]. lia.
Qed.

(** ** Wrong answers from the log *)
Theorem lately_ended : forall id name began ended d now fuel stack, p_min <= began <= now - d -> 0 <= d -> now - d < ended <= now ->
  now <= p_max ->
  let runs := [Story id began (Some (ASuccess, ended))] in
  let l := flat_map (written true name) runs in
  log_tells true l name runs /\ (forall st, In st runs -> happened now st) /\ how_many alive runs = 0 /\
  running_observe true true [] stack l name fuel (form_period (MoreThan d)) now = Returns true.
Proof.
  intros id name began ended d now fuel stack B D E M runs l.
  assert (T : log_tells true l name runs).
  { split; [|repeat constructor; intros []]. unfold l, runs. cbn [flat_map written s_end app]. cbn [filter r_task]. rewrite Z.eqb_refl.
    apply Permutation_refl. }
  assert (H : forall st, In st runs -> happened now st).
  { intros st [<- |[]]. unfold happened. cbn [s_began s_end]. split; [lia|]. split; [discriminate|lia]. }
  split; [exact T|]. split; [exact H|]. split; [reflexivity|].
  destruct (log_exact l runs (MoreThan d) now fuel [] stack name) as (b & O & W); try assumption.
  - unfold form_ok. lia.
  - change (as_comps []) with (@nil (cmp_op * bound)) in O. rewrite O. f_equal. apply W. left. split; [reflexivity|].
    unfold how_many, runs. cbn [filter]. unfold wanted, going_at. cbn [earliest latest_start s_began s_end].
    replace ((p_min <=? began) && (began <=? now - d) && (now - d <? ended)) with true by lia. reflexivity.
Qed.
Theorem overlapping : forall id id' name began ended began' d now fuel stack, id <> id' ->
  p_min <= began -> began < now - d -> now - d <= began' -> began' <= ended -> ended <= now -> 0 <= d -> now <= p_max ->
  let runs := [Story id began (Some (ASuccess, ended)); Story id' began' None] in
  let l := flat_map (written false name) runs in
  log_tells false l name runs /\ (forall st, In st runs -> happened now st) /\
  how_many (fun st => alive st && wanted (LessThan d) now st) runs = 1 /\
  running_observe true false [] stack l name fuel (form_period (LessThan d)) now = Returns false.
Proof.
  intros id id' name began ended began' d now fuel stack NI B1 B2 B3 B4 B5 D M runs l.
  assert (T : log_tells false l name runs).
  { split; [|repeat constructor; [intros [X|[]]; now apply NI|intros []]]. unfold l, runs.
    cbn [flat_map written s_end app]. cbn [filter r_task]. rewrite Z.eqb_refl. apply Permutation_refl. }
  split; [exact T|]. split; [|split].
  - intros st [<- |[<- |[]]]; unfold happened; cbn [s_began s_end]; [split; [lia|]; split; [discriminate|lia]|split; [lia|exact I]].
  - unfold how_many, runs. cbn [filter alive s_end andb]. unfold wanted. cbn [earliest latest_start s_began].
    replace ((now - d <=? began') && (began' <=? now)) with true by lia. reflexivity.
  - destruct (span_of fuel (LessThan d) now) as (e & S & Q); [unfold form_ok; lia|]. unfold running_observe. rewrite S.
    cbn [obind fst snd earliest comparable_observe]. cbn [earliest latest_start] in Q.
    pose proof (Q began' ltac:(lia)) as Q1. pose proof (Q ended ltac:(lia)) as Q2. pose proof (Q began ltac:(lia)) as Q0.
    unfold running_log, filter_by, l, runs. cbn [flat_map written s_end app s_began]. cbn [filter r_task r_created]. rewrite Z.eqb_refl.
    replace ((now - d <=? began) && (began <=? e)) with false by lia.
    replace ((now - d <=? ended) && (ended <=? e)) with true by lia.
    replace ((now - d <=? began') && (began' <=? e)) with true by lia.
    cbn [andb sort_records fold_right insert_record r_created].
    destruct (ended <=? began') eqn:L; cbn [guess_runs finish_times is_run r_action action_eqb filter negb map r_created take_finish];
      unfold finish_times; cbn [guess_runs is_run r_action action_eqb filter negb map r_created take_finish];
      unfold is_run; cbn [r_action action_eqb negb map filter r_created take_finish];
      replace (began' <=? ended) with true by lia; reflexivity.
Qed.
(** A crash record has no run id: the crashed run counts as running from then on. *)
Theorem crashed_runs_on : forall id name began t_now t_rec now stack fuel, p_min <= began <= t_now -> t_now <= t_rec <= now -> now <= p_max ->
  exists st l, set_cached fresh_state [Rec name ARun began (Some id)] name t_now t_rec true = (st, l, Ok tt) /\
    ts_status st = Some ACrash /\ running_observe true true [] stack l name fuel (form_period Running) now = Returns true.
Proof.
  intros id name began t_now t_rec now stack fuel B R M.
  exists (TState (set_last (last_from_log [Rec name ARun began (Some id)] name) ACrash (Some t_now)) (Some ACrash)),
    [Rec name ARun began (Some id); Rec name ACrash t_rec None].
  split; [|split; [reflexivity|]].
  - assert (L : forall a, last_from_log [Rec name ARun began (Some id)] name a = if action_eqb ARun a then Some began else None).
    { intros a. unfold last_from_log, get_latest, filter_by. cbn [filter r_task]. rewrite Z.eqb_refl. cbn [andb].
      unfold action_in. cbn [existsb r_action]. destruct a; reflexivity. }
    unfold set_cached, cached_order. cbn [max_action]. rewrite !L. cbn [action_eqb]. reflexivity.
  - destruct (span_of fuel Running now) as (e & S & Q); [unfold form_ok; repeat split; lia|]. unfold running_observe. rewrite S.
    cbn [obind fst snd earliest comparable_observe]. cbn [earliest latest_start] in Q.
    pose proof (Q began ltac:(lia)) as Q1. pose proof (Q t_rec ltac:(lia)) as Q2.
    unfold running_log, filter_by. cbn [filter r_task r_created]. rewrite Z.eqb_refl.
    replace ((p_min <=? began) && (began <=? e)) with true by lia.
    replace ((p_min <=? t_rec) && (t_rec <=? e)) with true by lia.
    cbn [andb sort_records fold_right insert_record r_created]. replace (began <=? t_rec) with true by lia. reflexivity.
Qed.

(** ** A reversed [between] *)
Theorem between_reversed : forall force ids c stack l name fuel a b now, 0 <= b < a ->
  running_observe force ids c stack l name fuel (form_period (Between a b)) now = Raises ValueError.
Proof.
  intros force ids c stack l name fuel a b now R. unfold running_observe.
  assert (E : get_period_span fuel (form_period (Between a b)) now = Raises ValueError).
  { unfold form_period, running_between, get_period_span, mk_span, use_reference, mk_span, rollback, span_rollback, option_map.
    unfold ivl, mk_interval. cbn [op_lt Z_ops]. replace (now - Z.abs (Z.abs a) <? now - Z.abs (Z.abs b)) with true by lia. reflexivity. }
  now rewrite E.
Qed.

(** ** The scheduler *)
Theorem cycles_say : forall more_than less_than n, exists b,
  cycles_observe (cycles_comps more_than less_than) (Some n) = Returns b /\
  (b = true <-> above more_than n /\ below less_than n /\ (more_than = None -> less_than = None -> 0 < n)).
Proof.
  intros more_than less_than n. eexists. split; [reflexivity|].
  destruct more_than as [m|], less_than as [k|]; cbn; try lia; intuition (try lia; try discriminate).
Qed.
Theorem started_say : forall more_than less_than fuel started now,
  match more_than, less_than with
  | Some m, Some k => 0 <= m <= k
  | Some m, None => 0 <= m /\ p_min <= now - m
  | None, Some k => 0 <= k
  | None, None => p_min <= now
  end ->
  p_min <= started <= now -> exists b,
  started_observe fuel (scheduler_period more_than less_than) (Some started) now = Returns b /\
  (b = true <-> at_least more_than (now - started) /\ at_most less_than (now - started)).
Proof.
  intros more_than less_than fuel started now K B. unfold started_observe, scheduler_period, get_period_span, mk_span, use_reference, mk_span,
    rollback, span_rollback.
  destruct more_than as [m|], less_than as [k|]; cbn [option_map];
    rewrite ivl_is by lia; cbn [obind left right fst snd]; (eexists; split; [reflexivity|]); cbn [at_least at_most]; lia.
Qed.
(** SchedulerStarted(period=TimeDelta(d)), and its negation in the sentence 'scheduler has run over ...' *)
Theorem started_within : forall d fuel started now, 0 <= d -> started <= now -> exists b,
  started_observe fuel (Some (mk_delta (Some d) None None)) (Some started) now = Returns b /\ (b = true <-> now - started <= d).
Proof.
  intros d fuel started now K B. unfold started_observe, get_period_span, mk_delta, use_reference, mk_delta, rollback, delta_rollback.
  rewrite ivl_is by lia. cbn [obind left right fst snd]. eexists. split; [reflexivity|]. lia.
Qed.
Theorem not_started : forall c more_than less_than fuel now,
  cycles_observe c None = Raises AttributeError /\
  exists x, started_observe fuel (scheduler_period more_than less_than) None now = Raises x.
Proof.
  intros c more_than less_than fuel now. split; [reflexivity|]. unfold started_observe.
  destruct (get_period_span fuel (scheduler_period more_than less_than) now) as [i|x|] eqn:E; [eexists; reflexivity|eexists; reflexivity|].
  exfalso. unfold scheduler_period, get_period_span, mk_span, use_reference, mk_span, rollback, span_rollback, ivl, mk_interval in E.
  destruct more_than as [m|], less_than as [k|]; cbn [option_map op_lt Z_ops] in E;
    match type of E with context [if ?b then _ else _] => destruct b end; discriminate E.
Qed.
