(** Cycles of served sessions for the examples beside the theorems of C76. *)
From Coq Require Import Bool Arith Lia ZifyBool.
From Verif Require Import Model.Base Model.Interval Model.Calendar Model.Anchored Model.Period Model.Condition Model.History.
From Verif Require Import Spec.PeriodSpec Spec.HistorySpec Spec.SchedulerSpec Model.World Model.Run Model.Scheduler.
From Verif Require Import Spec.OnceSpec Spec.LiveSpec Proofs.HistoryRunProofs Proofs.WindowProofs Proofs.CycleProofs.
From Verif Require Import Proofs.SchedulerExamples Proofs.OnceServed Proofs.OnceExamples Proofs.DoneServed.
Open Scope Z_scope.

(** The [i]-th cycle of the main loop *)
Fixpoint ex_find (orc : oracle) (cf : config) (i fuel : nat) (w : world) {struct fuel} : option (world * world) :=
  match fuel with
  | O => None
  | S fuel =>
      match check_shut_cond orc w with
      | (wa, Returns false) =>
          match env orc wa with
          | (wb, Returns tt) =>
              if w_shutdown wb then None
              else if w_restart wb then None
              else match run_cycle orc cf fuel wb with
                   | (wc, Returns tt) => match i with O => Some (wb, wc) | S i => ex_find orc cf i fuel wc end
                   | _ => None
                   end
          | _ => None
          end
      | _ => None
      end
  end.
Lemma ex_find_cycle orc cf i fuel w w1 w2 : ex_find orc cf i fuel w = Some (w1, w2) -> cycle_of orc cf fuel w w1 w2.
Proof.
  revert i w. induction fuel as [|fuel IH]; intros i w; cbn [ex_find]; [intros H; discriminate H|].
  destruct (check_shut_cond orc w) as [wa [[|]|e|]] eqn:E1; try (intros H; discriminate H).
  destruct (env orc wa) as [wb [[]|e|]] eqn:E2; try (intros H; discriminate H).
  destruct (w_shutdown wb) eqn:D1; [intros H; discriminate H|]. destruct (w_restart wb) eqn:D2; [intros H; discriminate H|].
  destruct (run_cycle orc cf fuel wb) as [wc [[]|e|]] eqn:E3; try (intros H; discriminate H).
  destruct i as [|i]; intros H.
  - injection H as <- <-. exact (this_cycle _ _ _ _ _ _ _ E1 E2 D1 D2 E3).
  - exact (later_cycle _ _ _ _ _ _ _ _ _ E1 E2 D1 D2 E3 (IH i wc H)).
Qed.
Definition ex_find_session (orc : oracle) (cf : config) (i fuel : nat) (w : world) : option (world * world) :=
  match startup orc cf fuel (set_flags true false false (w_force w) w) with
  | (w0, Returns tt) => ex_find orc cf i fuel w0
  | _ => None
  end.
Definition ex_is_ready (cf : config) (me : Z) (w : world) : bool :=
  w_enabled w && match find_task me w with
    | Some t => negb (tc_startup (t_cfg t)) && negb (tc_shutdown (t_cfg t)) && negb (t_disabled t) && negb (tc_always_false (t_cfg t)) &&
        (match tc_multi (t_cfg t) with Some b => b | None => cf_multi cf end || match live_runs t with [] => true | _ => false end)
    | None => false
    end.
Lemma ex_ready cf me w : ex_is_ready cf me w = true -> ready cf me w.
Proof.
  unfold ex_is_ready. intros H. apply andb_prop in H as [H1 H]. split; [exact H1|]. destruct (find_task me w) as [t|] eqn:F; [|discriminate].
  apply find_some in F as [I N]. exists t. repeat (apply andb_prop in H as [H ?]). split; [exact I|]. split; [lia|].
  split; [split; now apply negb_true_iff|]. split; [now apply negb_true_iff|]. split; [now apply negb_true_iff|].
  right. destruct (match tc_multi (t_cfg t) with Some b => b | None => cf_multi cf end) eqn:Em.
  - left. unfold multilaunch. now destruct (tc_multi (t_cfg t)).
  - right. now destruct (live_runs t).
Qed.
Definition ex_is_process (cf : config) (me : Z) (w : world) : bool :=
  match find_task me w with Some t => exec_eqb (get_execution cf t) XProcess | None => false end.
Lemma ex_process cf me w : ex_is_process cf me w = true -> exists t, In t (w_tasks w) /\ t_name t = me /\ executes cf t XProcess.
Proof.
  unfold ex_is_process. destruct (find_task me w) as [t|] eqn:F; [|intros H; discriminate H]. intros H. apply find_some in F as [I N]. exists t.
  split; [exact I|]. split; [lia|]. apply exec_spec. now destruct (get_execution cf t).
Qed.
(** A slot is free each time the scheduler comes to the task. *)
Fixpoint ex_slots (cf : config) (me : Z) (ts : list task) (evs : list event) : bool :=
  match evs with
  | [] => true
  | EvState ts' :: evs => ex_slots cf me ts' evs
  | EvConsider n false :: evs => (negb (n =? me) || (Z.of_nat (length (live_process_runs ts)) <? cf_max_process cf)) && ex_slots cf me ts evs
  | _ :: evs => ex_slots cf me ts evs
  end.
Lemma ex_slots_free cf me before after : forall ts, ex_slots cf me ts (before ++ EvConsider me false :: after) = true ->
  Z.of_nat (length (live_process_runs (tasks_after ts before))) < cf_max_process cf.
Proof.
  induction before as [|e before IH]; intros ts H.
  - cbn [app ex_slots tasks_after] in *. rewrite Z.eqb_refl in H. cbn [negb orb] in H. apply andb_prop in H as [H _]. lia.
  - cbn [app] in H. destruct e; cbn [ex_slots tasks_after] in *; try (exact (IH _ H)). destruct held; [exact (IH _ H)|]. apply andb_prop in H as [_ H]. exact (IH _ H).
Qed.
Definition ex_events (w1 w2 : world) : list event := rev (firstn (length (w_trace w2) - length (w_trace w1)) (w_trace w2)).
Lemma ex_events_happened w1 w2 evs : happened w1 w2 evs -> ex_events w1 w2 = evs.
Proof.
  unfold happened, ex_events. intros ->. rewrite app_length, Nat.add_sub, firstn_app, Nat.sub_diag, firstn_all. cbn [firstn]. rewrite app_nil_r. apply rev_involutive.
Qed.
Lemma ex_slot cf me w1 w2 : ex_slots cf me (w_tasks w1) (ex_events w1 w2) = true -> slot_when_considered cf me w1 w2.
Proof. intros H _ b a E. apply ex_events_happened in E. rewrite E in H. exact (ex_slots_free _ _ _ _ _ H). Qed.
Lemma ex_found orc cf i fuel w w1 w2 : ex_find_session orc cf i fuel w = Some (w1, w2) -> session_cycle orc cf fuel w w1 w2.
Proof.
  unfold ex_find_session. destruct (startup _ _ _ _) as [w0 [[]|e|]] eqn:E; try (intros H; discriminate H). intros F.
  exists w0. split; [exact E|exact (ex_find_cycle _ _ _ _ _ _ _ F)].
Qed.
(** A cycle in which a test is passed *)
Lemma ex_session orc cf i fuel w me (test : world -> world -> bool) :
  match ex_find_session orc cf i fuel w with Some (w1, w2) => ex_is_ready cf me w1 && ex_slots cf me (w_tasks w1) (ex_events w1 w2) && test w1 w2 | None => false end = true ->
  exists w1 w2, session_cycle orc cf fuel w w1 w2 /\ ready cf me w1 /\ slot_when_considered cf me w1 w2 /\ test w1 w2 = true.
Proof.
  unfold ex_find_session. destruct (startup _ _ _ _) as [w0 [[]|e|]] eqn:E; try (intros H; discriminate H).
  destruct (ex_find orc cf i fuel w0) as [[w1 w2]|] eqn:F; [|intros H; discriminate H]. intros H. apply andb_prop in H as [H1 H2]. apply andb_prop in H1 as [H1 H3].
  exists w1, w2. split; [exists w0; split; [exact E|exact (ex_find_cycle _ _ _ _ _ _ _ F)]|]. split; [now apply ex_ready|]. split; [now apply ex_slot|exact H2].
Qed.
Lemma ex_both_fair gate me : fair_session (ex_here gate) me (ex_time ex_twenty) ex_both.
Proof.
  assert (L : forall k m, In m (o_env (ex_here gate) k) -> (exists t, m = MClock t /\ t = ex_time ex_twenty k) \/ exists u s, m = MEnter u s \/ m = MLeave u s \/ m = MThread u s).
  { intros k m [<-|H]; [left; now eexists|]. right. unfold ex_leave in H. apply in_flat_map in H as (u & _ & H). cbn in H. exists u, (ex_code u). intuition auto. }
  constructor.
  - split; [intros j k; now apply ex_time_mono|]. intros k t H. destruct (L k _ H) as [(t' & E & ->)|(u & s & E)]; [now injection E|].
    destruct E as [E|[E|E]]; discriminate E.
  - vm_compute. discriminate.
  - intros k. reflexivity.
  - intros k H. destruct (L k _ H) as [(t & E & _)|(u & s & [E|[E|E]])]; discriminate E.
  - intros k H. destruct (L k _ H) as [(t & E & _)|(u & s & [E|[E|E]])]; discriminate E.
  - cbn. constructor; [intros [E|[]]; discriminate E|]. constructor; [intros []|constructor].
  - intros t a c [<- |[<- |[]]] _ E; discriminate E.
Qed.
Lemma ex_both_made gate : always_made (ex_here gate).
Proof. intros k. split; [reflexivity|]. split; [eexists; reflexivity|split; reflexivity]. Qed.
(** With a process *)
Lemma ex_pair_fair gate me : fair_session (ex_served gate) me (ex_time ex_twenty) ex_pair.
Proof.
  assert (L : forall k m, In m (o_env (ex_served gate) k) -> (forall n b, m <> MDisable n b) /\ forall b, m <> MHold b).
  { intros k m [<-|H]; [split; discriminate|]. unfold ex_finish in H. rewrite in_flat_map in H. destruct H as (u & _ & H). cbn in H.
    split; intros; intros ->; intuition discriminate. }
  constructor.
  - apply ex_goes_on. discriminate.
  - vm_compute. discriminate.
  - intros k. reflexivity.
  - intros k H. now apply (proj1 (L k _ H) me true).
  - intros k H. now apply (proj2 (L k _ H) true).
  - cbn. constructor; [intros [E|[]]; discriminate E|]. constructor; [intros []|constructor].
  - intros t a c [<- |[<- |[]]] _ E; discriminate E.
Qed.
Lemma ex_pair_made gate : always_made (ex_served gate).
Proof. intros k. split; [reflexivity|]. split; [eexists; reflexivity|split; reflexivity]. Qed.
Lemma ex_follows gate f s me : follows (ex_conditioned gate f s) me (gate me).
Proof. intros k w t F H. cbn. unfold ex_observe. now rewrite F, H. Qed.
Lemma ex_day_occurrence k : occurrence ex_day (us_day * k) (us_day * k + us_day).
Proof.
  intros fuel d H.
  pose proof (fixed_span_in TDay us_day None None false false false (Anchored TDay 0 us_day) fc_day eq_refl fuel k d) as S.
  pose proof (fixed_in TDay us_day None None false false false (Anchored TDay 0 us_day) fc_day eq_refl fuel k d) as I.
  unfold occ_start, occ_end, every_L in S, I. cbn [a_start a_end] in S, I.
  replace (k * us_day + 0) with (us_day * k) in S, I by lia. destruct (Z_lt_dec 0 us_day) as [Q|Q]; [|exfalso; apply Q; reflexivity].
  replace (k * us_day + us_day) with (us_day * k + us_day) in S, I by lia. split; [apply I|apply S]; lia.
Qed.
Definition ex_gate_once (n : Z) : HistorySpec.world -> Z -> bool := gate_runnable n false 5 ex_day.
Definition ex_gate_then (n : Z) (w : HistorySpec.world) (d : Z) : bool := if n =? 1 then gate_depend 1 2 dep_finish w d else gate_runnable 2 false 5 ex_day w d.
(** Hours since the first day *)
Definition ex_hour (w : world) : Z := (w_clock w - 1000 * us_day) / us_hour.
(** The new runs of a task, in hours *)
Definition ex_new_runs (me : Z) (w1 w2 : world) : list Z := skipn (length (ex_runs me w1)) (ex_hours (ex_runs me w2)).
Definition ex_within (k : Z) (w1 w2 : world) : bool := (us_day * k <? w_clock w1) && (w_clock w2 <? us_day * k + us_day).
Definition ex_z_list_eqb (a b : list Z) : bool := (length a =? length b)%nat && forallb (fun p => fst p =? snd p) (combine a b).
Lemma ex_z_list a b : ex_z_list_eqb a b = true -> a = b.
Proof.
  unfold ex_z_list_eqb. revert b. induction a as [|x a IH]; intros [|y b]; cbn [length combine forallb Nat.eqb fst snd andb]; intros H; try reflexivity; try discriminate H.
  apply andb_prop in H as [H1 H2]. apply andb_prop in H2 as [H2 H3]. f_equal; [lia|]. apply IH. now rewrite H1, H3.
Qed.

(** The preparation of a second run fails while the first is going on: the
    failure is recorded, the run is not. *)
Definition ex_unmade : oracle :=
  Oracle (fun k => [MClock (ex_time ex_twenty k)]) (fun _ _ _ => Ok true) (fun _ => Ok false) (fun _ => Ok false) (fun _ => true)
    (fun k => if Nat.leb 15 k then Some ValueError else None) (fun _ => None) (fun _ => true) (fun k => Ok (Z.of_nat k)) (fun _ => good_script) (fun _ => None).
Definition ex_many : config := Config XAsync true 2 (10 * us_day) true true true true.
Definition ex_one : world := ex_new 3 [ex_task (ex_cfg 1 XAsync 0)].
Definition ex_no_run (me : Z) (w' : world) (w1 w2 : world) : bool :=
  forallb (fun r => negb ((r_task r =? me) && action_eqb (r_action r) ARun && (w_clock w1 <=? r_created r) && (r_created r <=? w_clock w2))) (w_log w').
Lemma ex_no_run_in me w' w1 w2 : ex_no_run me w' w1 w2 = true -> ~ run_in_cycle me w1 w2 w'.
Proof.
  intros N (r & (new & E & I) & [Tr Ar] & B). unfold ex_no_run in N. rewrite forallb_forall in N.
  specialize (N r ltac:(rewrite E; apply in_or_app; now right)). rewrite Tr, Ar in N. cbn [action_eqb] in N. lia.
Qed.
Lemma ex_unmade_found : exists w1 w2, session_cycle ex_unmade ex_many 60 ex_one w1 w2 /\ ready ex_many 1 w1 /\ slot_when_considered ex_many 1 w1 w2 /\
  ex_no_run 1 (fst (serve ex_unmade ex_many 60 ex_one)) w1 w2 = true.
Proof. apply (ex_session ex_unmade ex_many 1 60 ex_one 1 (ex_no_run 1 (fst (serve ex_unmade ex_many 60 ex_one)))). vm_compute. reflexivity. Qed.
Lemma unmade_unrecorded : exists orc cf me time fuel gate w w1 w2,
  fair_session orc me time w /\ session_cycle orc cf fuel w w1 w2 /\ ready cf me w1 /\ slot_when_considered cf me w1 w2 /\ follows orc me gate /\ due_during me gate w1 w2 /\
  ~ run_in_cycle me w1 w2 (fst (serve orc cf fuel w)).
Proof.
  destruct ex_unmade_found as (w1 & w2 & S & R & SL & N).
  exists ex_unmade, ex_many, 1, (ex_time ex_twenty), 60%nat, (fun _ _ => true), ex_one, w1, w2. split.
  - constructor.
    + split; [intros j k L; apply ex_time_mono; [discriminate|exact L]|]. intros k t [E|[]]. injection E as <-. reflexivity.
    + vm_compute. discriminate.
    + intros k. reflexivity.
    + intros k [E|[]]. discriminate E.
    + intros k [E|[]]. discriminate E.
    + cbn. constructor; [intros []|constructor].
    + intros t a c [<- |[]] _ E; discriminate E.
  - split; [exact S|]. split; [exact R|]. split; [exact SL|]. split; [intros k v t _ _; reflexivity|]. split; [intros v t _ _; reflexivity|].
    exact (ex_no_run_in _ _ _ _ N).
Qed.
(** One process at a time, and the first never ends *)
Definition ex_busy : oracle := ex_conditioned (fun _ _ _ => true) (fun k => [MClock (ex_time ex_twenty k)]) good_script.
Definition ex_single : config := Config XProcess false 1 (10 * us_day) false false false false.
Definition ex_two : world := ex_new 3 [ex_task (ex_cfg 1 XProcess 0); ex_task (ex_cfg 2 XProcess 0)].
Lemma ex_busy_fair me : fair_session ex_busy me (ex_time ex_twenty) ex_two.
Proof.
  constructor.
  - split; [intros j k L; apply ex_time_mono; [discriminate|exact L]|]. intros k t [E|[]]. injection E as <-. reflexivity.
  - vm_compute. discriminate.
  - intros k. reflexivity.
  - intros k [E|[]]. discriminate E.
  - intros k [E|[]]. discriminate E.
  - cbn. constructor; [intros [E|[]]; discriminate E|]. constructor; [intros []|constructor].
  - intros t a c [<- |[<- |[]]] _ E; discriminate E.
Qed.
Lemma ex_busy_found : match ex_find_session ex_busy ex_single 1 60 ex_two with
  | Some (w1, w2) => ex_is_ready ex_single 2 w1 && ex_no_run 2 (fst (serve ex_busy ex_single 60 ex_two)) w1 w2 | None => false end = true.
Proof. vm_compute. reflexivity. Qed.
Lemma crowded_out : exists orc cf me time fuel gate w w1 w2,
  fair_session orc me time w /\ always_made orc /\ session_cycle orc cf fuel w w1 w2 /\ ready cf me w1 /\ follows orc me gate /\ due_during me gate w1 w2 /\
  ~ run_in_cycle me w1 w2 (fst (serve orc cf fuel w)).
Proof.
  pose proof ex_busy_found as H. destruct (ex_find_session ex_busy ex_single 1 60 ex_two) as [[w1 w2]|] eqn:F; [|discriminate H]. apply andb_prop in H as [R N].
  exists ex_busy, ex_single, 2, (ex_time ex_twenty), 60%nat, (fun _ _ => true), ex_two, w1, w2.
  split; [apply ex_busy_fair|]. split; [intros k; split; [reflexivity|]; split; [eexists; reflexivity|split; reflexivity]|].
  split; [exact (ex_found _ _ _ _ _ _ _ F)|]. split; [now apply ex_ready|]. split; [exact (ex_follows (fun _ _ _ => true) _ _ 2)|].
  split; [intros v t _ _; reflexivity|]. exact (ex_no_run_in _ _ _ _ N).
Qed.
(** Task 2 has an outcome in the log, and none before it *)
Definition ex_is_outcome (r : record) : bool := (r_task r =? 2) && existsb (action_eqb (r_action r)) dep_finish.
Lemma ex_is_about r : ex_is_outcome r = true <-> about 2 dep_finish r.
Proof.
  unfold ex_is_outcome, about. split.
  - intros H. apply andb_prop in H as [H1 H2]. split; [lia|]. apply existsb_exists in H2 as (a & I & E). destruct (r_action r), a; try discriminate E; exact I.
  - intros [-> I]. cbn [Z.eqb Pos.eqb andb]. apply existsb_exists. exists (r_action r). split; [exact I|]. now destruct (r_action r).
Qed.
Definition ex_outcome (w1 w2 : world) : bool :=
  match find ex_is_outcome (w_log w1) with
  | Some o => (r_created o <=? w_clock w1) && forallb (fun x => (r_created o <=? r_created x) || negb (ex_is_outcome x)) (w_log w2)
  | None => false
  end.
Lemma ex_outcome_spec w1 w2 : ex_outcome w1 w2 = true -> exists o, In o (w_log w1) /\ about 2 dep_finish o /\ r_created o <= w_clock w1 /\
  forall old x new, w_log w2 = old ++ o :: new -> In x new -> about 2 dep_finish x -> r_created o <= r_created x.
Proof.
  unfold ex_outcome. destruct (find ex_is_outcome (w_log w1)) as [o|] eqn:F; [|intros H; discriminate H]. intros H. apply andb_prop in H as [H1 H2].
  apply find_some in F as [I A]. exists o. split; [exact I|]. split; [now apply ex_is_about|]. split; [lia|].
  intros old x new E Ix Ax. rewrite forallb_forall in H2. specialize (H2 x ltac:(rewrite E; apply in_or_app; right; now right)).
  apply ex_is_about in Ax. rewrite Ax in H2. cbn [negb] in H2. rewrite Bool.orb_false_r in H2. lia.
Qed.
