(** Restarting: requests, chains of sessions, and where the code deviates. *)
From Coq Require Import Bool Arith Lia ZifyBool.
From Verif Require Import Model.Base Model.History Model.World Model.Run Model.Scheduler Model.Relaunch.
From Verif Require Import Spec.SchedulerSpec Spec.RelaunchSpec Proofs.WorldProofs Proofs.EventProofs Proofs.LimitProofs Proofs.PriorityProofs Proofs.RequestProofs Proofs.HoldProofs Proofs.CycleProofs Proofs.ShutdownProofs Proofs.OutcomeProofs Proofs.RelaunchProofs.
Open Scope Z_scope.

(** * The working part and the rest of a session *)
Definition work (orc : oracle) (cf : config) (fuel : nat) : M unit := startup orc cf fuel ;; main_loop orc cf fuel.
Definition begun (w : world) : world := set_flags true false false (w_force w) w.
Lemma serve_parts orc cf fuel w : serve orc cf fuel w =
  match work orc cf fuel (begun w) with
  | (w1, OutOfFuel) => (w1, OutOfFuel)
  | (w1, Returns _) => mbind (shut_down orc cf fuel None) (fun _ => ret tt) w1
  | (w1, Raises e) => mbind (shut_down orc cf fuel (match e with CancelledError => None | _ => Some e end))
      (fun _ => match e with SchedulerExit | SchedulerRestart => ret tt | _ => raise e end) w1
  end.
Proof.
  unfold serve, work. unfold mbind at 1, modify at 1. unfold mbind at 1. unfold attempt at 1. fold (begun w).
  destruct ((startup orc cf fuel ;; main_loop orc cf fuel) (begun w)) as [w1 [[]|e|]]; [reflexivity| |reflexivity].
  destruct e; reflexivity.
Qed.
Lemma restart_parts orc cf how fuel n w : serve_restart orc cf how fuel (S n) w =
  match work orc cf fuel (begun w) with
  | (w1, OutOfFuel) => (w1, OutOfFuel)
  | (w1, Returns _) => mbind (shut_down orc cf fuel None) (fun _ => ret Stopped) w1
  | (w1, Raises SchedulerRestart) => mbind (shut_down orc cf fuel (Some SchedulerRestart))
      (fun _ => match how with Recall => serve_restart orc cf how fuel n | Launch => ret Launched | Unknown => raise ValueError end) w1
  | (w1, Raises e) => mbind (shut_down orc cf fuel (match e with CancelledError => None | _ => Some e end))
      (fun _ => match e with SchedulerExit => ret Stopped | _ => raise e end) w1
  end.
Proof.
  cbn [serve_restart]. unfold work. unfold mbind at 1, modify at 1. unfold mbind at 1. unfold attempt at 1. fold (begun w).
  destruct ((startup orc cf fuel ;; main_loop orc cf fuel) (begun w)) as [w1 [[]|e|]]; [reflexivity| |reflexivity].
  destruct e; try reflexivity.
  all: unfold mbind at 1 3; destruct (shut_down orc cf fuel (Some SchedulerRestart) w1) as [w2 [[]|e|]]; try reflexivity.
  all: destruct how; unfold mbind; try reflexivity; destruct (serve_restart orc cf Recall fuel n w2) as [w3 [a|e|]]; reflexivity.
Qed.
Lemma called_work orc cf fuel w : restart_called orc cf fuel w <-> snd (work orc cf fuel (begun w)) = Raises SchedulerRestart.
Proof. reflexivity. Qed.

(** Without a restart both do the same *)
Lemma not_called orc cf how fuel n w : ~ restart_called orc cf fuel w ->
  exists o, serve_restart orc cf how fuel (S n) w = (fst (serve orc cf fuel w), o) /\ outcome_of o (snd (serve orc cf fuel w)) /\ o <> Returns Launched.
Proof.
  intros H. rewrite called_work in H. rewrite serve_parts, restart_parts. destruct (work orc cf fuel (begun w)) as [w1 [[]|e|]]; cbn [snd] in H.
  - unfold mbind. destruct (shut_down orc cf fuel None w1) as [w2 [[]|e|]]; eexists; (split; [reflexivity|split; [exact I || reflexivity|discriminate]]).
  - destruct e; try (destruct H; reflexivity).
    all: unfold mbind; match goal with |- context [shut_down ?a ?b ?c ?x ?y] => destruct (shut_down a b c x y) as [w2 [[]|e|]] end;
      eexists; (split; [reflexivity|split; [exact I || reflexivity|discriminate]]).
  - eexists. split; [reflexivity|split; [exact I|discriminate]].
Qed.
(** With one, and the runs ended *)
Lemma called orc cf how fuel n w : restart_called orc cf fuel w ->
  (serve orc cf fuel w = (fst (serve orc cf fuel w), Returns tt) /\
   serve_restart orc cf how fuel (S n) w =
     match how with Recall => serve_restart orc cf how fuel n | Launch => ret Launched | Unknown => raise ValueError end (fst (serve orc cf fuel w))) \/
  (snd (serve orc cf fuel w) <> Returns tt /\
   exists o, serve_restart orc cf how fuel (S n) w = (fst (serve orc cf fuel w), o) /\ outcome_of o (snd (serve orc cf fuel w)) /\ o <> Returns Launched).
Proof.
  rewrite called_work, serve_parts, restart_parts. destruct (work orc cf fuel (begun w)) as [w1 o]. cbn [snd]. intros ->.
  unfold mbind. destruct (shut_down orc cf fuel (Some SchedulerRestart) w1) as [w2 [[]|e|]]; [left; split; reflexivity|right..];
    (split; [discriminate|]); eexists; (split; [reflexivity|split; [exact I || reflexivity|discriminate]]).
Qed.

Lemma recalled orc cf fuel n w w' o : (forall k, o_hook orc k = None) -> serve_restart orc cf Recall fuel n w = (w', o) -> o <> OutOfFuel ->
  exists o' k, (k < n)%nat /\ sessions orc cf fuel w w' o' k /\ outcome_of o o' /\ o <> Returns Launched.
Proof.
  intros HK. revert w. induction n as [|n IH]; intros w H NF; [inversion H; congruence|].
  destruct (serve orc cf fuel w) as [w1 o1] eqn:E.
  assert (D : restart_called orc cf fuel w \/ ~ restart_called orc cf fuel w).
  { unfold restart_called. destruct (snd _) as [|[]|]; auto; right; discriminate. }
  destruct D as [D|D].
  - destruct (called orc cf Recall fuel n w D) as [[E1 E2]|(E1 & o2 & E2 & E3 & E4)]; rewrite E in *; cbn [fst snd] in *.
    + injection E1 as ->. rewrite E2 in H. destruct (IH w1 H NF) as (o' & k & L & S & O). exists o', (Datatypes.S k). split; [lia|]. split; [|exact O].
      eapply next_session; [exact E|exact D| |exact S]. pose proof (serve_over orc cf fuel w HK) as V. rewrite E in V. apply V. discriminate.
    + rewrite E2 in H. injection H as <- <-. exists o1, 0%nat. split; [lia|]. split; [|split; [exact E3|exact E4]].
      apply last_session; [exact E|]. intros [_ X]. exact (E1 X).
  - destruct (not_called orc cf Recall fuel n w D) as (o2 & E2 & E3 & E4). rewrite E in *. cbn [fst snd] in *.
    rewrite E2 in H. injection H as <- <-. exists o1, 0%nat. split; [lia|]. split; [|split; [exact E3|exact E4]].
    apply last_session; [exact E|]. intros [X _]. exact (D X).
Qed.
Lemma launched orc cf fuel n w w' : serve_restart orc cf Launch fuel (S n) w = (w', Returns Launched) <->
  restart_called orc cf fuel w /\ serve orc cf fuel w = (w', Returns tt).
Proof.
  split.
  - intros H. assert (D : restart_called orc cf fuel w \/ ~ restart_called orc cf fuel w).
    { unfold restart_called. destruct (snd _) as [|[]|]; auto; right; discriminate. }
    destruct D as [D|D].
    + split; [exact D|]. destruct (called orc cf Launch fuel n w D) as [[E1 E2]|(E1 & o2 & E2 & E3 & E4)].
      * rewrite E1. rewrite E2 in H. injection H as <-. reflexivity.
      * rewrite E2 in H. injection H as _ ->. congruence.
    + destruct (not_called orc cf Launch fuel n w D) as (o2 & E2 & E3 & E4). rewrite E2 in H. injection H as _ ->. congruence.
  - intros [D E]. destruct (called orc cf Launch fuel n w D) as [[E1 E2]|(E1 & _)]; rewrite E in *; cbn [fst snd] in *; [exact E2|congruence].
Qed.
Lemma unknown orc cf fuel n w w' : restart_called orc cf fuel w -> serve orc cf fuel w = (w', Returns tt) ->
  serve_restart orc cf Unknown fuel (S n) w = (w', Raises ValueError).
Proof.
  intros D E. destruct (called orc cf Unknown fuel n w D) as [[E1 E2]|(E1 & _)]; rewrite E in *; cbn [fst snd] in *; [exact E2|congruence].
Qed.

(** * Only on request *)
Lemma only_called orc cf fuel w : nobody_restarts orc ->
  (forall r, In r (tracked w) -> rn_phase r <> Over (Some SchedulerRestart)) -> ~ restart_called orc cf fuel w.
Proof.
  intros NR HW H. unfold restart_called in H. pose proof (work_q orc cf NR fuel (begun w)) as Q. destruct Q as [_ Q].
  - split; [reflexivity|]. intros t r Ht Hr. apply HW. unfold tracked. apply in_concat. exists (t_stack t). split; [|exact Hr]. now apply in_map.
  - fold (begun w) in H. rewrite H in Q. now apply Q.
Qed.
Lemma only_on_request orc cf how fuel n w : nobody_restarts orc ->
  (forall r, In r (tracked w) -> rn_phase r <> Over (Some SchedulerRestart)) ->
  exists o, serve_restart orc cf how fuel (S n) w = (fst (serve orc cf fuel w), o) /\ outcome_of o (snd (serve orc cf fuel w)) /\ o <> Returns Launched.
Proof. intros NR HW. apply not_called. now apply only_called. Qed.

(** * Requests *)
Definition asks (w w' : world) : Prop := w_restart w = true -> w_restart w' = true.
Lemma asks_heeds : heeds all_moves asks.
Proof. constructor; [constructor; [constructor|]|..]; unfold asks; intros; auto. Qed.
Lemma asks_start n : start_rel asks asks n (fun _ => True).
Proof. constructor; [constructor|..]; unfold asks; intros; auto. Qed.
Section Kept.
Context (orc : oracle) (cf : config).
Let HT : forall k m, In m (o_env orc k) -> all_moves m := fun _ _ _ => I.
Let C : still all_moves asks := calm_still _ _ (hd_calm _ _ asks_heeds).
Lemma asks_guarded fuel n : steps asks (guarded orc cf fuel n).
Proof using Type. apply (steps_guarded C n (asks_start n) orc cf HT). Qed.
Lemma cycle_kept fuel w : w_restart w = true -> w_restart (fst (run_cycle orc cf fuel w)) = true.
Proof using Type.
  assert (K : steps asks (run_cycle orc cf fuel)).
  { unfold run_cycle. st C; [apply (steps_tasks C)|unfold asks; auto|apply (steps_hook C)
      |apply (steps_for_each C); intros; apply (steps_cycle_task asks_heeds _ _ HT asks_guarded)|apply (steps_handle_logs C _ _ HT)
      |apply (steps_check_thread_errors C)|apply (steps_hook C)|unfold asks; auto]. }
  apply K.
Qed.
Lemma startup_kept fuel w : w_restart w = true -> w_restart (fst (startup orc cf fuel w)) = true.
Proof using Type.
  assert (K : steps asks (startup orc cf fuel)).
  { unfold startup. st C; [unfold asks; auto|apply (steps_hook C)|unfold asks; auto|apply (steps_tasks C)
      |apply (steps_for_each C); intros; apply (steps_startup_task asks_heeds _ _ HT asks_guarded)|apply (steps_hook C)|unfold asks; auto]. }
  apply K.
Qed.
End Kept.
Lemma request_kept orc cf fuel w : w_restart w = true ->
  w_restart (fst (run_cycle orc cf fuel w)) = true /\ w_restart (fst (startup orc cf fuel w)) = true.
Proof. intros H. split; [now apply cycle_kept|now apply startup_kept]. Qed.

Definition begins_nothing (w w' : world) : Prop := exists evs, happened w w' evs /\ nothing_begins evs.
Lemma begins_calm : calm all_moves begins_nothing.
Proof.
  assert (F : forall w w', w_trace w' = w_trace w -> begins_nothing w w').
  { intros w w' H. exists []. split; [exact H|]. split; [|intros n u]; intros []. }
  assert (E : forall w w' e, w_trace w' = e :: w_trace w -> match e with EvCycle | EvStart _ _ => False | _ => True end -> begins_nothing w w').
  { intros w w' e H N. exists [e]. split; [exact H|]. split; [|intros n u]; intros [-> |[]]; exact N. }
  assert (E2 : forall w w' e e', w_trace w' = e' :: e :: w_trace w -> match e with EvCycle | EvStart _ _ => False | _ => True end ->
    match e' with EvCycle | EvStart _ _ => False | _ => True end -> begins_nothing w w').
  { intros w w' e e' H N N'. exists [e; e']. split; [exact H|]. split; [|intros n u]; intros [-> |[-> |[]]]; assumption. }
  constructor; [constructor|]; intros; try (apply F; reflexivity); try (eapply E; [reflexivity|exact I]); try (eapply E2; [reflexivity|exact I|exact I]).
  destruct H as (e1 & H1 & N1 & N2), H0 as (e2 & H2 & N3 & N4). exists (e1 ++ e2). split; [eapply happened_trans; eassumption|].
  split; [intros X; apply in_app_iff in X; tauto|]. intros n u X. apply in_app_iff in X. specialize (N2 n u). specialize (N4 n u). tauto.
Qed.
Definition stays_up (w w' : world) : Prop := w_shutdown w' = w_shutdown w.
Lemma stays_still : still (fun m => match m with MShutdown _ => False | _ => True end) stays_up.
Proof. constructor; unfold stays_up; intros; try reflexivity; try contradiction. congruence. Qed.
Section Asked.
Context (orc : oracle) (cf : config).
Let HT : forall k m, In m (o_env orc k) -> all_moves m := fun _ _ _ => I.
Let C : still all_moves begins_nothing := calm_still _ _ begins_calm.
Let CA : still all_moves asks := calm_still _ _ (hd_calm _ _ asks_heeds).
Lemma asked_loop fuel w w' o : w_restart w = true -> main_loop orc cf (S fuel) w = (w', o) -> begins_nothing w w' /\ o <> OutOfFuel.
Proof using Type.
  intros HR H. cbn [main_loop] in H.
  pose proof (steps_check_shut_cond C orc w) as B1. pose proof (steps_check_shut_cond CA orc w) as A1.
  assert (O1 : snd (check_shut_cond orc w) <> OutOfFuel).
  { unfold check_shut_cond, mbind, get, ask. intros X. destruct (w_shut w); [destruct (o_shut orc (w_tick w))|]; discriminate X. }
  unfold mbind at 1 in H. destruct (check_shut_cond orc w) as [w1 [[]|e|]]; cbn [fst snd] in *; try congruence; try (injection H as <- <-; split; [exact B1|discriminate]).
  pose proof (steps_env C orc HT w1) as B2. pose proof (steps_env CA orc HT w1) as A2.
  destruct (env_returns orc w1) as (w2 & E & _). rewrite E in *. cbn [fst] in *. unfold mbind at 1 in H. rewrite E in H.
  assert (B : begins_nothing w w2) by exact (c_trans _ _ C _ _ _ B1 B2). assert (A : w_restart w2 = true) by auto.
  unfold mbind at 1, get at 1 in H. destruct (w_shutdown w2); [injection H as <- <-; split; [exact B|discriminate]|].
  unfold mbind at 1, get at 1 in H. rewrite A in H. injection H as <- <-. split; [exact B|discriminate].
Qed.
Lemma asked_ends fuel w evs : w_restart w = true -> happened w (fst (main_loop orc cf (S fuel) w)) evs ->
  nothing_begins evs /\ snd (main_loop orc cf (S fuel) w) <> OutOfFuel.
Proof using Type.
  intros HR H. destruct (main_loop orc cf (S fuel) w) as [w' o] eqn:E. destruct (asked_loop fuel w w' o HR E) as [(e & H1 & H2) H3].
  cbn [fst snd] in *. rewrite (happened_unique _ _ _ _ H H1). now split.
Qed.
Lemma asked_restarts fuel w : (forall f, never orc (MShutdown f)) -> w_shutdown w = false -> goes_on orc w -> w_restart w = true ->
  snd (main_loop orc cf (S fuel) w) = Raises SchedulerRestart.
Proof using Type.
  intros HN HD HG HR. cbn [main_loop].
  assert (E1 : exists w1, check_shut_cond orc w = (w1, Returns false) /\ w_shutdown w1 = false /\ w_restart w1 = true).
  { unfold check_shut_cond, goes_on in *. unfold mbind at 1, get at 1. destruct (w_shut w) as [|n]; cycle 1.
    - exists w. unfold mbind, get, ret. apply Nat.leb_gt in HG. now rewrite HG.
    - unfold mbind, ask. rewrite HG. eexists. split; [reflexivity|]. now split. }
  destruct E1 as (w1 & E1 & D1 & R1). unfold mbind at 1. rewrite E1.
  destruct (env_returns orc w1) as (w2 & E2 & _). unfold mbind at 1. rewrite E2.
  pose proof (steps_env CA orc HT w1 R1) as A2. pose proof (steps_env stays_still orc) as S2. specialize (S2 ltac:(intros k [] Hm; try exact I; exact (HN _ k Hm)) w1).
  rewrite E2 in *. unfold stays_up in S2. cbn [fst] in *. unfold mbind at 1, get at 1. rewrite S2, D1. unfold mbind at 1, get at 1. rewrite A2. reflexivity.
Qed.
End Asked.

(** * A task in the main thread that raises it *)
Section Raised.
Context (orc : oracle) (cf : config) (n i : Z) (fuel : nat) (w : world) (t : task) (F : find_task n w = Some t).
Context (PR : o_prep orc (w_tick w) = None) (RI : o_run_id orc (S (w_tick w)) = Ok i).
Lemma prelude_raises w3 : (forall w2 t2, find_task n w2 = Some t2 -> (unused i w -> unused i w2) -> w_log w2 = w_log w ->
    w3 w2 = fst (launch orc fuel (get_execution cf t) n (w_uid w) (w_clock w) i w2) /\
    snd (launch orc fuel (get_execution cf t) n (w_uid w) (w_clock w) i w2) = Raises SchedulerRestart) ->
  exists w2 t2, find_task n w2 = Some t2 /\ (unused i w -> unused i w2) /\ w_log w2 = w_log w /\
    start_async orc cf fuel n w =
     (on_task n (fun t => with_stack (filter (fun r => negb (exec_eqb (rn_kind r) XMain)) (t_stack t)) t) (w3 w2), Raises SchedulerRestart).
Proof using F PR RI.
  intros HL. unfold start_async.
  assert (E0 : get_task n w = (w, Returns t)) by (unfold get_task; now rewrite F). rewrite (bind_to _ _ _ _ _ E0).
  unfold mbind at 1, get at 1. unfold mbind at 1, get at 1. unfold mbind at 1, modify at 1. unfold mbind at 1, modify at 1.
  set (w1 := emit (EvStart n (w_uid w)) (set_uid (S (w_uid w)) w)).
  assert (G : exists w2 t2, (e <- ask (o_prep orc) ;; raise_if e ;; get_direct_params n ;; get_run_id orc) w1 = (w2, Returns i) /\
     find_task n w2 = Some t2 /\ (unused i w -> unused i w2) /\ w_log w2 = w_log w /\ w_clock w2 = w_clock w /\ tracked w2 = tracked w /\ w_tick w2 = S (S (w_tick w))).
  { assert (A1 : ask (o_prep orc) w1 = (bump w1, Returns None)) by (unfold ask; change (w_tick w1) with (w_tick w); now rewrite PR).
    rewrite (bind_to _ _ _ _ _ A1). cbn [raise_if]. rewrite (bind_to (ret tt) _ _ (bump w1) tt eq_refl).
    assert (D : exists wd td, get_direct_params n (bump w1) = (wd, Returns tt) /\ find_task n wd = Some td /\ tracked wd = tracked w /\ w_orphans wd = w_orphans w /\
      w_log wd = w_log w /\ w_clock wd = w_clock w /\ w_tick wd = S (w_tick w)).
    { assert (E0' : get_task n (bump w1) = (bump w1, Returns t)) by (unfold get_task; change (find_task n (bump w1)) with (find_task n w); now rewrite F).
      unfold get_direct_params. rewrite (bind_to _ _ _ _ _ E0'). destruct (t_batches t) as [|p rest].
      - eexists _, t. split; [reflexivity|]. split; [exact F|]. now repeat split.
      - eexists _, (with_batches rest t). split; [reflexivity|]. split; [|split; [|now repeat split]].
        + change (find_task n (on_task n (with_batches rest) w) = Some (with_batches rest t)). rewrite find_on_task by reflexivity. rewrite F. cbn [option_map].
          now rewrite (find_name _ _ _ F), Z.eqb_refl.
        + change (tracked (on_task n (with_batches rest) w) = tracked w). now apply tracked_on_task. }
    destruct D as (wd & td & Ed & Fd & Tr & Or & Ld & Cd & Td). rewrite (bind_to _ _ _ _ _ Ed). exists (bump wd), td. split; [|split; [exact Fd|]; split; [|repeat split; auto]].
    - unfold get_run_id, mbind. change (ask (o_run_id orc) wd) with (bump wd, Returns (o_run_id orc (w_tick wd))). cbv iota. rewrite Td, RI. reflexivity.
    - intros U. unfold unused. change (tracked (bump wd)) with (tracked wd). change (w_orphans (bump wd)) with (w_orphans wd). rewrite Tr, Or. exact U.
    - cbn. now rewrite Td. }
  destruct G as (w2 & t2 & E2 & F2 & U2 & L2 & C2 & T2 & K2). destruct (HL w2 t2 F2 U2 L2) as [Ew Eo].
  exists w2, t2. do 3 (split; [assumption|]). unfold finally, mbind, attempt. unfold mbind, attempt in E2. rewrite E2. cbv iota.
  destruct (launch orc fuel (get_execution cf t) n (w_uid w) (w_clock w) i w2) as [w4 o]. cbn in Ew, Eo. rewrite Ew, Eo. reflexivity.
Qed.
Lemma main_raises : (forall k, o_write orc k = true) -> (forall k, tidy (o_script orc k)) -> (forall k, s_exec (o_script orc k) = Some SchedulerRestart) ->
  (forall k, s_setup (o_script orc k) = None) -> executes cf t XMain -> unused i w ->
  exists w' l c, run_task orc cf fuel n w = (w', Raises SchedulerRestart) /\
    w_log w' = w_log w ++ l ++ [Rec n ASuccess c None].
Proof using F PR RI.
  intros WR TD EX ST X U.
  assert (K : forall w2 t2, find_task n w2 = Some t2 -> unused i w2 -> exists w' l c, launch orc fuel XMain n (w_uid w) (w_clock w) i w2 = (w', Raises SchedulerRestart) /\
    w_log w' = w_log w2 ++ l ++ [Rec n ASuccess c None]).
  { clear F U PR RI t X. intros w0 t F U. destruct (main_begins orc WR n i (w_uid w) (w_clock w) w0 t F U) as (w1 & E1 & L1 & U1 & C1 & _).
    destruct (env_returns orc w1) as (w2 & E2 & C2). destruct (foreign_logs i _ _ (env_foreign orc i _ _ E2) U1) as [U2 (l2 & L2 & F2)].
    set (s := o_script orc (w_tick w2)). destruct (env_returns orc (bump w2)) as (w3 & E3 & C3).
    destruct (foreign_logs i _ _ (env_foreign orc i _ _ E3) U2) as [U3 (l3 & L3 & F3)].
    assert (Fi : exists t3, find_task n w3 = Some t3).
    { destruct (cfgs_find n w0 w1 t C1 F) as (t1 & F1 & _). destruct (cfgs_find n w1 w2 t1 C2 F1) as (t2 & F2' & _).
      destruct (cfgs_find n (bump w2) w3 t2 C3 F2') as (t3 & F3' & _). now exists t3. }
    destruct Fi as (t3 & Ft3). destruct (body_leaves orc (Some XMain) n (Some i) s w3 t3 Ft3 (WR _) (TD _) SchedulerRestart ltac:(now left) (EX _)) as (w4 & E4 & [L4 _] & _).
    exists w4, (Rec n ARun (w_clock w0) (Some i) :: l2 ++ l3), (w_clock w3). split.
    - cbn [launch]. set (r := Run _ _ _ _ _ _ _) in *. apply bind_returns in E1 as (v1 & [] & X1 & E1). rewrite (bind_to _ _ _ _ _ X1).
      apply bind_returns in E1 as (v2 & [] & X2 & E1). rewrite (bind_to _ _ _ _ _ X2). apply bind_returns in E1 as (v3 & [] & X3 & E1). rewrite (bind_to _ _ _ _ _ X3).
      rewrite (bind_to _ _ _ _ _ E1). rewrite (bind_to _ _ _ _ _ E2).
      assert (X5 : ask (o_script orc) w2 = (bump w2, Returns s)) by reflexivity. rewrite (bind_to _ _ _ _ _ X5).
      assert (X6 : run_setup s (bump w2) = (bump w2, Returns tt)) by (unfold run_setup, s; now rewrite ST). rewrite (bind_to _ _ _ _ _ X6).
      now rewrite (bind_to _ _ _ _ _ E3).
    - rewrite L4, L3. change (w_log (bump w2)) with (w_log w2). rewrite L2, L1. cbn [app]. now rewrite <- !app_assoc. }
  destruct (prelude_raises (fun w2 => fst (launch orc fuel XMain n (w_uid w) (w_clock w) i w2))) as (w2 & t2 & F2 & U2 & L2 & E).
  { intros w2 t2 F2 U2 _. rewrite (executes_eq cf t _ X). split; [reflexivity|]. destruct (K w2 t2 F2 (U2 U)) as (w3 & l & c & E3 & _). now rewrite E3. }
  destruct (K w2 t2 F2 (U2 U)) as (w3 & l & c & E3 & L3). rewrite E3 in E. eexists _, l, c. split.
  - unfold run_task, mbind, attempt. rewrite E. reflexivity.
  - cbn [fst w_log on_task set_tasks]. rewrite <- L2. exact L3.
Qed.
End Raised.
