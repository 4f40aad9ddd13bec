(** Restarting: where SchedulerRestart can come from. *)
From Coq Require Import Bool Arith Lia ZifyBool.
From Verif Require Import Model.Base Model.History Model.World Model.Run Model.Scheduler Model.Relaunch.
From Verif Require Import Spec.SchedulerSpec Spec.RelaunchSpec Proofs.WorldProofs.
Open Scope Z_scope.

Definition bad : exn := SchedulerRestart.
(** No restart is requested and no run has ended with one *)
Definition good (w : world) : Prop := w_restart w = false /\
  forall t r, In t (w_tasks w) -> In r (t_stack t) -> rn_phase r <> Over (Some bad).
Definition quiet {A} (m : M A) (P : A -> Prop) : Prop := forall w, good w ->
  good (fst (m w)) /\ match snd (m w) with Returns a => P a | Raises e => e <> bad | OutOfFuel => True end.
Definition any {A} (a : A) : Prop := True.
Definition not_bad {A} (r : result A) : Prop := match r with Ok _ => True | Err e => e <> bad end.

Lemma q_ret {A} (a : A) (P : A -> Prop) : P a -> quiet (ret a) P.
Proof. intros H w G. now split. Qed.
Lemma q_raise {A} e (P : A -> Prop) : e <> bad -> quiet (raise e) P.
Proof. intros H w G. now split. Qed.
Lemma q_fuel {A} (P : A -> Prop) : quiet (fun w => (w, OutOfFuel)) P.
Proof. intros w G. now split. Qed.
Lemma q_bind {A B} (m : M A) (f : A -> M B) P Q : quiet m P -> (forall a, P a -> quiet (f a) Q) -> quiet (mbind m f) Q.
Proof.
  intros H K w G. unfold mbind. destruct (H w G) as [G' O]. destruct (m w) as [w' [a|e|]]; cbn [fst snd] in *;
    [exact (K a O w' G')|now split..].
Qed.
Lemma q_weak {A} (m : M A) (P Q : A -> Prop) : quiet m P -> (forall a, P a -> Q a) -> quiet m Q.
Proof. intros H K w G. destruct (H w G) as [G' O]. split; [exact G'|]. destruct (snd (m w)); auto. Qed.
Lemma q_attempt {A} (m : M A) P : quiet m P -> quiet (attempt m) not_bad.
Proof.
  intros H w G. unfold attempt. destruct (H w G) as [G' O]. destruct (m w) as [w' [a|e|]]; cbn [fst snd] in *; now split.
Qed.
Lemma q_finally {A} (m : M A) f P Q : quiet m P -> quiet f Q -> quiet (finally m f) any.
Proof.
  intros H K. unfold finally. eapply q_bind; [eapply q_attempt; exact H|]. intros r NB.
  eapply q_bind; [exact K|]. intros _ _. destruct r as [a|e]; [now apply (q_ret _ any)|now apply q_raise].
Qed.
Lemma q_get {A} (f : world -> A) : quiet (get f) (fun a => exists w, good w /\ a = f w).
Proof. intros w G. split; [exact G|]. exists w. now split. Qed.
Lemma q_get_task n : quiet (get_task n) (fun t => forall r, In r (t_stack t) -> rn_phase r <> Over (Some bad)).
Proof.
  intros w G. unfold get_task. destruct (find_task n w) as [t|] eqn:F; cbn [fst snd]; split; try exact G; [|discriminate].
  intros r Hr. apply find_some in F as [F _]. exact (proj2 G t r F Hr).
Qed.
Lemma q_raise_if e : e <> Some bad -> quiet (raise_if e) any.
Proof. intros H. destruct e as [e|]; [apply q_raise; congruence|now apply (q_ret _ any)]. Qed.
Lemma q_ask {A} (f : nat -> A) : quiet (ask f) (fun a => exists k, a = f k).
Proof. intros w [G1 G2]. split; [split; [exact G1|exact G2]|]. now exists (w_tick w). Qed.
Lemma q_modify f : (forall w, good w -> good (f w)) -> quiet (modify f) any.
Proof. intros H w G. split; [exact (H w G)|exact I]. Qed.
Lemma q_each f ns : (forall n, quiet (f n) any) -> quiet (for_each f ns) any.
Proof.
  intros H. induction ns as [|n ns IH]; cbn [for_each]; [now apply (q_ret _ any)|]. eapply q_bind; [apply H|]. intros _ _. exact IH.
Qed.

(** Changes of the state *)
Lemma g_same w w' : w_restart w' = w_restart w -> w_tasks w' = w_tasks w -> good w -> good w'.
Proof. intros E1 E2 [G1 G2]. split; [congruence|]. rewrite E2. exact G2. Qed.
Lemma g_task n f w : (forall t r, In r (t_stack (f t)) -> In r (t_stack t) \/ rn_phase r <> Over (Some bad)) ->
  good w -> good (on_task n f w).
Proof.
  intros H [G1 G2]. split; [exact G1|]. intros t r Ht Hr. cbn in Ht. apply in_map_iff in Ht as (t0 & <- & Ht).
  destruct (t_name t0 =? n); [|exact (G2 _ _ Ht Hr)]. destruct (H _ _ Hr) as [Hr' | Hr']; [exact (G2 _ _ Ht Hr')|exact Hr'].
Qed.
Lemma g_run u f w : (forall r, rn_phase r <> Over (Some bad) -> rn_phase (f r) <> Over (Some bad)) -> good w -> good (on_run u f w).
Proof.
  intros H [G1 G2]. split; [exact G1|]. intros t r Ht Hr. cbn in Ht. apply in_map_iff in Ht as (t0 & <- & Ht).
  cbn in Hr. unfold on_stack in Hr. apply in_map_iff in Hr as (r0 & <- & Hr). specialize (G2 _ _ Ht Hr).
  destruct (Nat.eqb (rn_uid r0) u); auto.
Qed.
Lemma g_find w u t r : good w -> find_run u w = Some (t, r) -> rn_phase r <> Over (Some bad).
Proof.
  intros [_ G] F. unfold find_run, task_of_run in F. destruct (find _ (w_tasks w)) as [t0|] eqn:E; [|discriminate F].
  destruct (find _ (t_stack t0)) as [r0|] eqn:E2; [|discriminate F]. injection F as <- <-.
  apply find_some in E as [E _]. apply find_some in E2 as [E2 _]. exact (G _ _ E E2).
Qed.
Ltac same := apply q_modify; intros ?w ?G; eapply g_same; [| |eassumption]; reflexivity.
Ltac on_t := apply q_modify; intros ?w ?G; apply g_task; [intros ?t ?r ?Hr; try (left; exact Hr)|exact G].

Section Quiet.
Context (orc : oracle) (cf : config) (NR : nobody_restarts orc).

Lemma status_quiet n (f : tstate -> log -> Z -> bool -> tstate * log * result unit) :
  (forall st l t ok st' l' r, f st l t ok = (st', l', r) -> not_bad r) ->
  quiet (ok <- ask (o_write orc) ;; t <- get_task n ;; w <- get (fun w => w) ;;
    let '(st, l, r) := f (t_state t) (w_log w) (w_clock w) ok in
    modify (set_log l) ;; modify (on_task n (with_state st)) ;;
    match r with Ok tt => ret tt | Err e => raise e end) any.
Proof.
  intros Hf. eapply q_bind; [apply q_ask|]. intros ok _. eapply q_bind; [apply q_get_task|]. intros t _.
  eapply q_bind; [apply q_get|]. intros w _. destruct (f _ _ _ _) as [[st l] r] eqn:E.
  eapply q_bind; [same|]. intros _ _. eapply q_bind; [on_t|]. intros _ _.
  specialize (Hf _ _ _ _ _ _ _ E). destruct r as [[]|e]; [now apply (q_ret _ any)|now apply q_raise].
Qed.
Lemma set_status_bad st l n a t t' rid ok st' l' r : set_status st l n a t t' rid ok = (st', l', r) -> not_bad r.
Proof. unfold set_status. destruct ok; [|destruct (action_eqb a ARun)]; intros H; injection H as _ _ <-; cbn; auto; discriminate. Qed.
Lemma set_status_q n a rid : quiet (set_status_m orc n a rid) any.
Proof. apply (status_quiet n (fun st l t ok => set_status st l n a t t rid ok)). intros st l t ok st' l' r. apply set_status_bad. Qed.
Lemma log_record_q q : quiet (log_record_m orc q) any.
Proof.
  apply (status_quiet (r_task (q_rec q))
    (fun st l t ok => log_record st l (r_task (q_rec q)) (r_action (q_rec q)) (r_created (q_rec q)) (r_run_id (q_rec q)) ok)).
  intros st l t ok st' l' r. apply set_status_bad.
Qed.
Lemma set_cached_q n : quiet (set_cached_m orc n) any.
Proof.
  apply (status_quiet n (fun st l t ok => set_cached st l n t t ok)). intros st l t ok st' l' r. unfold set_cached.
  destruct max_action as [[[] ?]|]; intros H; try (injection H as _ _ <-; exact I). eapply set_status_bad; exact H.
Qed.
Lemma log_action_q ch n a rid v : quiet (log_action orc ch n a rid v) any.
Proof.
  unfold log_action. eapply q_bind; [destruct ch; [|apply set_status_q]|].
  - unfold set_status_child. eapply q_bind; [apply q_get|]. intros w _. same.
  - intros _ _. destruct (_ && _); [on_t|now apply (q_ret _ any)].
Qed.
Lemma handle_return_q n v : quiet (handle_return n v) any.
Proof. unfold handle_return. eapply q_bind; [apply q_get|]. intros r _. same. Qed.

Ltac field := match goal with H : mild_script ?s |- ?f ?s <> _ => apply (H f); cbn; tauto end.
Lemma run_setup_q s : mild_script s -> quiet (run_setup s) any.
Proof. intros H. apply q_raise_if. field. Qed.
Lemma run_body_q ch x n rid s : mild_script s -> quiet (run_body orc ch x n rid s) any.
Proof.
  intros H. assert (HE : s_exec s <> Some bad) by field. assert (HF : s_failure s <> Some bad) by field. unfold run_body.
  eapply q_finally; [|eapply q_bind; [apply q_raise_if; field|intros _ _; apply q_raise_if; field]].
  assert (L : forall e, e <> bad -> quiet
    (match s_failure s with
     | Some CancelledError => raise CancelledError
     | _ => log_action orc ch n AFail rid 0 ;; match x with None => raise e | Some _ => ret tt end
     end) any).
  { intros e He. assert (Q : quiet (log_action orc ch n AFail rid 0 ;; match x with None => raise e | Some _ => ret tt end) any).
    { eapply q_bind; [apply log_action_q|]. intros _ _. destruct x; [now apply (q_ret _ any)|now apply q_raise]. }
    destruct (s_failure s) as [[]|]; try exact Q. now apply q_raise. }
  destruct (s_exec s) as [e|].
  - destruct e; try (apply L; congruence); try apply log_action_q; try congruence.
    all: eapply q_bind; [apply log_action_q|intros _ _]; eapply q_bind; [apply q_raise_if; field|intros _ _; apply q_raise; congruence].
  - eapply q_bind; [|intros _ _; apply log_action_q]. destruct ch; [now apply (q_ret _ any)|].
    eapply q_bind; [apply q_raise_if; field|intros _ _; apply handle_return_q].
Qed.
Lemma run_as_async_q ch x n rid s : mild_script s -> quiet (run_as_async orc ch x n rid s) any.
Proof. intros H. unfold run_as_async. eapply q_bind; [now apply run_setup_q|]. intros _ _. now apply run_body_q. Qed.
Lemma thread_code_q n u rid s : mild_script s -> quiet (thread_code orc n u rid s) any.
Proof.
  intros H. unfold thread_code. eapply q_bind; [eapply q_attempt, run_as_async_q; exact H|]. intros r _.
  destruct r as [[]|e]; [now apply (q_ret _ any)|]. destruct (is_exception e); [|now apply (q_ret _ any)].
  eapply q_bind; [eapply q_attempt, log_action_q|]. intros r _.
  destruct r as [[]|x]; [now apply (q_ret _ any)|]. destruct x; try now apply q_ret.
  apply q_modify. intros w G. apply g_run; [|exact G]. auto.
Qed.
Lemma process_code_q n rid s : mild_script s -> quiet (process_code orc n rid s) any.
Proof.
  intros H. unfold process_code. eapply q_bind; [eapply q_attempt, run_as_async_q; exact H|]. intros r _.
  destruct r as [[]|e]; [now apply (q_ret _ any)|]. destruct (is_exception e); [apply log_action_q|now apply (q_ret _ any)].
Qed.
Lemma q_over u e : e <> Some bad -> quiet (modify (on_run u (with_phase (Over e)))) any.
Proof. intros H. apply q_modify. intros w G. apply g_run; [|exact G]. cbn. congruence. Qed.
Lemma end_coroutine_q u m : quiet m any -> quiet (end_coroutine u m) any.
Proof.
  intros H. unfold end_coroutine. eapply q_bind; [eapply q_attempt; exact H|]. intros r NB. apply q_over.
  destruct r; [discriminate|cbn in NB; congruence].
Qed.
Lemma do_move_q m : mild_move m -> quiet (do_move orc m) any.
Proof.
  intros H. destruct m; cbn [do_move mild_move] in *; try contradiction.
  - same.
  - eapply q_bind; [same|]. intros _ _. on_t.
  - on_t.
  - on_t.
  - apply q_modify. intros w G. eapply g_same; [| |exact G]; reflexivity.
  - apply q_modify. intros w G. eapply g_same; [| |exact G]; reflexivity.
  - eapply q_bind; [apply q_get|]. intros w _. destruct (find_run uid w) as [[t r]|]; [|now apply (q_ret _ any)].
    destruct (_ && _); [|now apply (q_ret _ any)]. unfold enter. eapply q_bind; [eapply q_attempt, run_setup_q; exact H|]. intros r' NB.
    destruct r' as [?|e]; [|apply q_over; cbn in NB; congruence].
    apply q_modify. intros w' G. apply g_run; [|exact G]. intros r0 P0. unfold begin_run. destruct (is_pending r0); [discriminate|exact P0].
  - eapply q_bind; [apply q_get|]. intros w _. destruct (find_run uid w) as [[t r]|]; [|now apply (q_ret _ any)].
    destruct (_ && _); [|now apply (q_ret _ any)]. apply end_coroutine_q. now apply run_body_q.
  - eapply q_bind; [apply q_get|]. intros w _. destruct (w_orphans w) as [|[nm r] rest]; [now apply (q_ret _ any)|].
    eapply q_bind; [same|]. intros _ _. eapply q_bind; [eapply q_attempt, run_as_async_q; exact H|]. intros _ _. now apply q_ret.
  - eapply q_bind; [apply q_get|]. intros w _. destruct (find_run uid w) as [[t r]|]; [|now apply (q_ret _ any)].
    destruct (_ && _); [|now apply (q_ret _ any)]. apply end_coroutine_q. now apply thread_code_q.
  - eapply q_bind; [apply q_get|]. intros w _. destruct (find_run uid w) as [[t r]|]; [|now apply (q_ret _ any)].
    destruct (_ && _); [|now apply (q_ret _ any)]. apply end_coroutine_q. now apply process_code_q.
  - eapply q_bind; [apply q_get|]. intros w _. destruct (find_run uid w) as [[t r]|]; [|now apply (q_ret _ any)].
    destruct (_ && _); [|now apply (q_ret _ any)]. apply q_over. discriminate.
Qed.
Lemma env_q : quiet (env orc) any.
Proof using NR.
  unfold env. eapply q_bind; [apply q_ask|]. intros ms (k & ->). pose proof (nr_env _ NR k) as H.
  induction (o_env orc k) as [|m ms IH]; cbn [do_moves]; [now apply (q_ret _ any)|].
  eapply q_bind; [eapply q_attempt, do_move_q; apply H; now left|]. intros _ _. apply IH. intros m' Hm. apply H. now right.
Qed.
Lemma get_run_id_q : quiet (get_run_id orc) any.
Proof using NR.
  unfold get_run_id. eapply q_bind; [apply q_ask|]. intros r (k & ->). pose proof (nr_run_id _ NR k) as H.
  destruct (o_run_id orc k); [now apply (q_ret _ any)|apply q_raise; unfold bad; congruence].
Qed.
Lemma direct_q n : quiet (get_direct_params n) any.
Proof.
  unfold get_direct_params. eapply q_bind; [apply q_get_task|]. intros t _. destruct (t_batches t); [same|].
  eapply q_bind; [on_t|]. intros _ _. same.
Qed.
Lemma lock_q fuel n u err : err <> Some bad -> quiet (lock_to_run_log orc fuel n u err) any.
Proof using NR.
  revert err. induction fuel as [|fuel IH]; intros err NB; cbn [lock_to_run_log]; [apply q_fuel|].
  eapply q_bind; [apply env_q|]. intros _ _. eapply q_bind; [apply q_get|]. intros w _. destruct (w_queue w) as [|q rest].
  - eapply q_bind; [apply q_get_task|]. intros t _. destruct (is_alive t); [now apply IH|].
    eapply q_bind; [same|]. intros _ _. apply q_raise. discriminate.
  - eapply q_bind; [same|]. intros _ _. eapply q_bind; [apply q_get_task|]. intros _ _.
    eapply q_bind; [eapply q_attempt, log_record_q|]. intros r NB'.
    assert (E : match r with Err e => Some e | Ok _ => err end <> Some bad) by (destruct r; [exact NB|cbn in NB'; congruence]).
    destruct (action_eqb _ _); [now apply q_raise_if|now apply IH].
Qed.
Lemma push_q n r : rn_phase r <> Over (Some bad) -> quiet (push_run n r) any.
Proof.
  intros H. unfold push_run. apply q_modify. intros w G. apply g_task; [|exact G]. intros t r' Hr. cbn in Hr.
  apply in_app_iff in Hr as [Hr|[<- |[]]]; auto.
Qed.
Lemma launch_q fuel x n u t0 rid : quiet (launch orc fuel x n u t0 rid) any.
Proof using NR.
  assert (P : forall (K : option exn -> M unit), (forall e, e <> Some bad -> quiet (K e) any) ->
    quiet (e <- ask (o_prep orc) ;; raise_if e ;; e <- ask (o_spawn orc) ;; K e) any).
  { intros K HK. eapply q_bind; [apply q_ask|]. intros e (k & ->). eapply q_bind; [apply q_raise_if, (nr_prep _ NR)|]. intros _ _.
    eapply q_bind; [apply q_ask|]. intros e (k' & ->). apply HK, (nr_spawn _ NR). }
  unfold launch. destruct x.
  all: try (apply P; intros e NB; destruct e as [e|];
    [eapply q_bind; [apply push_q; discriminate|intros _ _; apply q_raise; congruence]|]).
  all: try (eapply q_bind; [apply q_ask|]; intros boots _; eapply q_bind; [apply push_q; destruct boots; discriminate|]; intros _ _;
    eapply q_bind; [destruct boots; [apply log_action_q|now apply (q_ret _ any)]|]; intros _ _; apply lock_q; discriminate).
  - eapply q_bind; [same|]. intros _ _. eapply q_bind; [apply push_q; discriminate|]. intros _ _.
    eapply q_bind; [apply log_action_q|]. intros _ _. eapply q_bind; [same|]. intros _ _. eapply q_bind; [apply env_q|]. intros _ _.
    eapply q_bind; [apply q_ask|]. intros s (k & ->). eapply q_bind; [apply run_setup_q, (nr_script _ NR)|]. intros _ _.
    eapply q_bind; [apply env_q|]. intros _ _. apply run_body_q, (nr_script _ NR).
  - eapply q_bind; [apply push_q; discriminate|]. intros _ _. apply log_action_q.
  - eapply q_bind; [apply push_q; discriminate|]. intros _ _. eapply q_bind; [on_t|]. intros _ _.
    eapply q_bind; [eapply q_attempt, log_action_q|]. intros r _. destruct r as [?|e]; [now apply (q_ret _ any)|].
    eapply q_bind; [apply q_modify; intros w G; apply g_run; [auto|exact G]|]. intros _ _.
    eapply q_bind; [eapply q_attempt, log_action_q|]. intros _ _. apply q_over. discriminate.
Qed.
Lemma status_is_run_q n : quiet (status_is_run n) any.
Proof. unfold status_is_run. eapply q_bind; [apply q_get_task|]. intros t _. now apply q_ret. Qed.
Lemma start_failed_q x n rid e : e <> bad -> quiet (start_failed orc x n rid e) any.
Proof using NR.
  intros NB. assert (L : quiet (rid <- match rid with Some i => ret i | None => get_run_id orc end ;;
      b <- status_is_run n ;;
      (if b then ret tt else log_action orc false n ARun (Some rid) 0) ;;
      log_action orc false n AFail (Some rid) 0 ;;
      raise TaskSetupError) (@any unit)).
  { eapply q_bind; [destruct rid; [now apply (q_ret _ any)|apply get_run_id_q]|]. intros i _.
    eapply q_bind; [apply status_is_run_q|]. intros b _. eapply q_bind; [destruct b; [now apply (q_ret _ any)|apply log_action_q]|]. intros _ _.
    eapply q_bind; [apply log_action_q|]. intros _ _. apply q_raise. discriminate. }
  unfold start_failed. destruct e; try exact L; try (apply q_raise; congruence).
  eapply q_bind; [apply status_is_run_q|]. intros b _. eapply q_bind; [destruct (_ && _); [apply log_action_q|now apply (q_ret _ any)]|].
  intros _ _. apply q_raise. discriminate.
Qed.
Lemma start_async_q fuel n : quiet (start_async orc cf fuel n) any.
Proof using NR.
  unfold start_async. eapply q_bind; [apply q_get_task|]. intros t _. eapply q_bind; [apply q_get|]. intros t0 _.
  eapply q_bind; [apply q_get|]. intros u _. eapply q_bind; [same|]. intros _ _. eapply q_bind; [same|]. intros _ _.
  eapply q_finally.
  - eapply q_bind.
    + eapply q_attempt. eapply q_bind; [apply q_ask|]. intros e (k & ->). eapply q_bind; [apply q_raise_if, (nr_prep _ NR)|]. intros _ _.
      eapply q_bind; [apply direct_q|]. intros _ _. apply get_run_id_q.
    + intros r NB. destruct r as [rid|e]; [|now apply start_failed_q].
      eapply q_bind; [eapply q_attempt, launch_q|]. intros r NB'. destruct r as [?|e]; [now apply (q_ret _ any)|now apply start_failed_q].
  - apply q_modify. intros w G. apply g_task; [|exact G]. intros t1 r Hr. cbn in Hr. apply filter_In in Hr. left. exact (proj1 Hr).
Qed.
Lemma is_runnable_q n : quiet (is_runnable orc n) any.
Proof using NR.
  unfold is_runnable. eapply q_bind; [apply q_get_task|]. intros t _. destruct (t_batches t); [|now apply (q_ret _ any)].
  destruct (t_disabled t); [now apply (q_ret _ any)|]. destruct (tc_always_false _); [now apply (q_ret _ any)|].
  eapply q_bind; [apply q_get|]. intros w _.
  eapply q_bind; [apply q_ask|]. intros r (k & ->). pose proof (nr_cond _ NR k n w) as H.
  destruct (o_cond orc k n w); [now apply (q_ret _ any)|apply q_raise; unfold bad; congruence].
Qed.
Lemma terminate_obj_q u : quiet (terminate_run_obj orc u) any.
Proof using NR.
  unfold terminate_run_obj. eapply q_bind; [apply q_get|]. intros w (wa & G & ->). destruct (find_run u wa) as [[t r]|] eqn:F; [|now apply (q_ret _ any)].
  pose proof (g_find _ _ _ _ G F) as NB. destruct (rn_kind r).
  - apply q_raise. discriminate.
  - destruct (rn_phase r) as [| |[e|]]; [| |apply q_raise; congruence|now apply (q_ret _ any)].
    + eapply q_bind; [apply q_over; discriminate|]. intros _ _. apply q_raise. discriminate.
    + eapply q_bind; [apply env_q|]. intros _ _. eapply q_bind; [apply q_ask|]. intros s (k & ->).
      eapply q_bind; [apply q_get|]. intros w (wb & G' & ->). destruct (find_run u wb) as [[t' r']|] eqn:F'; [|now apply (q_ret _ any)].
      pose proof (g_find _ _ _ _ G' F') as NB'.
      assert (L : quiet (end_coroutine u (run_body orc false (Some XAsync) (t_name t') (rn_id r') (o_script orc k)) ;;
        w <- get (fun w => w) ;;
        match find_run u w with
        | Some (_, r) => match rn_phase r with Over (Some e) => raise e | _ => ret tt end
        | None => ret tt
        end) (@any unit)).
      { eapply q_bind; [apply end_coroutine_q, run_body_q, (nr_script _ NR)|]. intros _ _.
        eapply q_bind; [apply q_get|]. intros w (wc & G2 & ->). destruct (find_run u wc) as [[t2 r2]|] eqn:F2; [|now apply (q_ret _ any)].
        pose proof (g_find _ _ _ _ G2 F2) as NB2. destruct (rn_phase r2) as [| |[e|]]; try now apply q_ret. apply q_raise. congruence. }
      destruct (rn_phase r') as [| |[e|]]; [exact L|exact L|apply q_raise; congruence|now apply (q_ret _ any)].
  - apply q_modify. intros w G'. apply g_run; [auto|exact G'].
  - destruct (run_alive r); [apply q_over; discriminate|now apply (q_ret _ any)].
Qed.
Lemma terminate_run_q n r : quiet (terminate_run orc n r) any.
Proof using NR.
  unfold terminate_run. eapply q_bind; [same|]. intros _ _. eapply q_bind; [eapply q_attempt, terminate_obj_q|]. intros o NB.
  destruct o as [?|e]; [destruct (exec_eqb _ _); [apply log_action_q|now apply (q_ret _ any)]|].
  destruct e; try (apply q_raise; exact NB). apply log_action_q.
Qed.
Lemma clean_q n : quiet (clean_run_stack cf n) any.
Proof. unfold clean_run_stack. on_t. cbn in Hr. apply filter_In in Hr. left. exact (proj1 Hr). Qed.
Lemma terminate_all_q n : quiet (terminate_all_runs orc cf n) any.
Proof using NR.
  unfold terminate_all_runs. eapply q_bind; [apply q_get_task|]. intros t _. eapply q_bind.
  - instantiate (1 := any). induction (t_stack t) as [|r rs IH]; cbn [terminate_each]; [now apply (q_ret _ any)|].
    eapply q_bind; [apply terminate_run_q|]. intros _ _. eapply q_bind; [apply env_q|]. intros _ _. exact IH.
  - intros _ _. eapply q_bind; [apply clean_q|]. intros _ _. on_t.
Qed.
Lemma check_termination_q n : quiet (check_termination orc cf n) any.
Proof using NR.
  unfold check_termination. eapply q_bind; [apply q_ask|]. intros r (k & ->). pose proof (nr_end _ NR k) as H.
  eapply q_bind.
  - instantiate (1 := any). destruct (o_end orc k); [now apply (q_ret _ any)|]. destruct (_ || _); [apply q_raise; unfold bad; congruence|now apply (q_ret _ any)].
  - intros b _. eapply q_bind; [apply q_get_task|]. intros t _. destruct (t_term t); [apply terminate_all_q|].
    destruct b; [apply terminate_all_q|]. eapply q_bind; [apply q_get|]. intros now _. destruct (tc_permanent _); [now apply (q_ret _ any)|].
    induction (t_stack t) as [|r rs IH]; cbn [terminate_late]; [now apply (q_ret _ any)|].
    eapply q_bind; [apply q_get|]. intros w _. eapply q_bind; [|intros _ _; exact IH]. instantiate (1 := any).
    destruct (_ && _); [|now apply (q_ret _ any)]. eapply q_bind; [apply terminate_run_q|]. intros _ _. apply env_q.
Qed.
Lemma check_exceptions_q n : quiet (check_exceptions n) any.
Proof.
  unfold check_exceptions. eapply q_bind; [apply q_get_task|]. intros t _. destruct (drop_first_exc (t_stack t)); [|now apply (q_ret _ any)].
  eapply q_bind; [|intros _ _; apply q_raise; discriminate]. on_t. unfold drop_exc in Hr.
  assert (D : forall l l', drop_first_exc l = Some l' -> forall x, In x l' -> In x l).
  { induction l0 as [|a l0 IH]; intros l' E x Hx; cbn in E; [discriminate|]. destruct (rn_exc a); [injection E as <-; now right|].
    destruct (drop_first_exc l0) as [l1|]; [|discriminate]. injection E as <-. destruct Hx as [<- |Hx]; [now left|right; exact (IH l1 eq_refl x Hx)]. }
  left. destruct (drop_first_exc (t_stack t0)) as [l'|] eqn:E; [exact (D _ _ E _ Hr)|exact Hr].
Qed.
Lemma check_task_cond_q n : quiet (check_task_cond orc cf n) any.
Proof using NR.
  unfold check_task_cond. eapply q_bind; [eapply q_attempt, is_runnable_q|]. intros r NB. destruct r as [b|e]; [now apply (q_ret _ any)|].
  destruct (_ || _); [now apply q_raise|now apply (q_ret _ any)].
Qed.
Lemma is_task_runnable_q n : quiet (is_task_runnable orc cf n) any.
Proof using NR.
  unfold is_task_runnable. eapply q_bind; [apply q_get_task|]. intros t _. eapply q_bind.
  - instantiate (1 := any). destruct (exec_eqb _ _); [|now apply (q_ret _ any)]. unfold has_free_processors. eapply q_bind; [apply q_get|]. intros ts _. now apply q_ret.
  - intros free _. destruct (negb free); [now apply (q_ret _ any)|]. eapply q_bind; [apply env_q|]. intros _ _.
    eapply q_bind; [apply q_get_task|]. intros t' _. destruct (_ && _); [now apply (q_ret _ any)|]. eapply q_bind; [apply env_q|]. intros _ _. apply check_task_cond_q.
Qed.
Lemma run_task_q fuel n : quiet (run_task orc cf fuel n) any.
Proof using NR.
  unfold run_task. eapply q_bind; [eapply q_attempt, start_async_q|]. intros r NB. destruct r as [?|e]; [now apply (q_ret _ any)|].
  destruct e; try (apply q_raise; exact NB).
  all: match goal with |- context [if ?b then _ else _] => destruct b end; [now apply (q_ret _ any)|apply q_raise; exact NB].
Qed.
Lemma handle_logs_q fuel : quiet (handle_logs orc cf fuel) any.
Proof using NR.
  induction fuel as [|fuel IH]; cbn [handle_logs]; [apply q_fuel|]. eapply q_bind; [apply env_q|]. intros _ _.
  eapply q_bind; [apply q_get|]. intros w _. destruct (w_queue w) as [|q rest]; [now apply (q_ret _ any)|].
  eapply q_bind; [same|]. intros _ _. eapply q_bind; [apply q_get_task|]. intros _ _. eapply q_bind.
  - instantiate (1 := any). destruct (q_return q); [|now apply (q_ret _ any)]. destruct (action_eqb _ _); [apply handle_return_q|now apply (q_ret _ any)].
  - intros _ _. eapply q_bind; [eapply q_attempt, log_record_q|]. intros r NB. eapply q_bind; [|intros _ _; exact IH]. instantiate (1 := any).
    destruct r as [?|e]; [now apply (q_ret _ any)|]. destruct (_ || _); [now apply q_raise|now apply (q_ret _ any)].
Qed.
Lemma tasks_q : quiet tasks any.
Proof. eapply q_weak; [apply q_get|]. now intros. Qed.
Lemma check_thread_errors_q : quiet (check_thread_errors cf) any.
Proof.
  unfold check_thread_errors. destruct (cf_silence_logging cf); [now apply (q_ret _ any)|]. eapply q_bind; [apply tasks_q|]. intros ns _.
  apply q_each, check_exceptions_q.
Qed.
Lemma hook_q : quiet (hook orc) any.
Proof using NR. unfold hook. eapply q_bind; [apply q_ask|]. intros e (k & ->). apply q_raise_if, (nr_hook _ NR). Qed.
Lemma cycle_task_q fuel n : quiet (cycle_task orc cf fuel n) any.
Proof using NR.
  unfold cycle_task. eapply q_bind; [apply env_q|]. intros _ _. eapply q_bind; [apply handle_logs_q|]. intros _ _.
  eapply q_bind; [apply clean_q|]. intros _ _. eapply q_bind; [apply env_q|]. intros _ _. eapply q_bind; [apply q_get_task|]. intros t _.
  eapply q_bind.
  - instantiate (1 := any). destruct (_ || _); [now apply (q_ret _ any)|]. eapply q_bind; [apply q_get|]. intros en _. eapply q_bind; [same|]. intros _ _.
    destruct en; [|now apply (q_ret _ any)]. eapply q_bind; [apply is_task_runnable_q|]. intros b _. eapply q_bind; [apply env_q|]. intros _ _.
    destruct b; [apply run_task_q|now apply (q_ret _ any)].
  - intros _ _. eapply q_bind; [apply env_q|]. intros _ _. apply check_termination_q.
Qed.
Lemma run_cycle_q fuel : quiet (run_cycle orc cf fuel) any.
Proof using NR.
  unfold run_cycle. eapply q_bind; [apply tasks_q|]. intros ns _. eapply q_bind; [same|]. intros _ _. eapply q_bind; [apply hook_q|]. intros _ _.
  eapply q_bind; [apply q_each, cycle_task_q|]. intros _ _. eapply q_bind; [apply handle_logs_q|]. intros _ _.
  eapply q_bind; [apply check_thread_errors_q|]. intros _ _. eapply q_bind; [apply hook_q|]. intros _ _. same.
Qed.
Lemma run_special_q fuel n : quiet (run_special orc cf fuel n) any.
Proof using NR.
  unfold run_special. eapply q_bind; [apply q_get_task|]. intros t _. eapply q_bind.
  - instantiate (1 := any). destruct (_ && _); [|now apply (q_ret _ any)]. eapply q_bind; [same|]. intros _ _. on_t.
  - intros _ _. eapply q_bind; [apply is_task_runnable_q|]. intros b _. eapply q_bind; [apply env_q|]. intros _ _. destruct b; [apply run_task_q|now apply (q_ret _ any)].
Qed.
Lemma startup_q fuel : quiet (startup orc cf fuel) any.
Proof using NR.
  unfold startup. eapply q_bind; [same|]. intros _ _. eapply q_bind; [apply hook_q|]. intros _ _. eapply q_bind; [same|]. intros _ _.
  eapply q_bind; [apply tasks_q|]. intros ns _. eapply q_bind; [|intros _ _; eapply q_bind; [apply hook_q|intros _ _; same]].
  apply q_each. intros n. unfold startup_task. eapply q_bind; [apply env_q|]. intros _ _.
  eapply q_bind; [eapply q_attempt, set_cached_q|]. intros r NB. eapply q_bind.
  - instantiate (1 := any). destruct r as [?|e]; [now apply (q_ret _ any)|]. destruct e; try (apply q_raise; exact NB). destruct (cf_silence_logging cf); [now apply (q_ret _ any)|now apply q_raise].
  - intros _ _. eapply q_bind; [apply q_get_task|]. intros t _. destruct (tc_startup _); [apply run_special_q|now apply (q_ret _ any)].
Qed.
Lemma main_loop_q fuel : quiet (main_loop orc cf fuel) any.
Proof using NR.
  induction fuel as [|fuel IH]; cbn [main_loop]; [apply q_fuel|]. eapply q_bind.
  - instantiate (1 := any). unfold check_shut_cond. eapply q_bind; [apply q_get|]. intros c _. destruct c.
    + eapply q_bind; [apply q_ask|]. intros r (k & ->). pose proof (nr_shut _ NR k) as H.
      destruct (o_shut orc k); [now apply (q_ret _ any)|apply q_raise; unfold bad; congruence].
    + eapply q_bind; [apply q_get|]. intros k _. now apply q_ret.
  - intros stop _. destruct stop; [now apply (q_ret _ any)|]. eapply q_bind; [apply env_q|]. intros _ _. eapply q_bind; [apply q_get|]. intros down _.
    destruct down; [now apply (q_ret _ any)|]. eapply q_bind; [apply q_get|]. intros r (w & [G _] & ->). rewrite G.
    eapply q_bind; [apply run_cycle_q|]. intros _ _. exact IH.
Qed.
Lemma work_q fuel : quiet (startup orc cf fuel ;; main_loop orc cf fuel) any.
Proof using NR. eapply q_bind; [apply startup_q|]. intros _ _. apply main_loop_q. Qed.
End Quiet.
