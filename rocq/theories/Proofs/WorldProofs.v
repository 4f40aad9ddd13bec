(** Reasoning about the statements of [Model.World]: every function of the run
    and scheduler models is a sequence of primitive changes, so a reflexive and
    transitive relation that the primitives respect relates the states before
    and after the whole. *)
From Coq Require Import Bool Arith Lia ZifyBool.
From Verif Require Import Model.Base Model.History Model.World Model.Run Model.Scheduler.
Open Scope Z_scope.

Definition bump (w : world) : world :=
  World (w_clock w) (w_log w) (w_tasks w) (w_queue w) (w_returns w) (w_orphans w) (w_enabled w)
     (w_shutdown w) (w_restart w) (w_force w) (w_shut w) (w_cycles w) (w_uid w) (S (w_tick w)) (w_trace w).

Definition steps (R : world -> world -> Prop) {A} (m : M A) : Prop := forall w, R w (fst (m w)).

(** Changes made outside of starting a run, when the outside makes only moves in [A]. *)
Record still (A : move -> Prop) (R : world -> world -> Prop) : Prop := Still {
  c_refl : forall w, R w w;
  c_trans : forall a b c, R a b -> R b c -> R a c;
  c_bump : forall w, R w (bump w);
  c_clock : forall t w, A (MClock t) -> R w (set_clock t w);
  c_log : forall l w, R w (set_log (w_log w ++ l) w);
  c_queue : forall q w, R w (set_queue q w);
  c_returns : forall n v w, R w (set_returns ((n, v) :: w_returns w) w);
  c_orphans : forall o w, R w (set_orphans o w);
  c_hold : forall b w, A (MHold b) -> R w (set_flags (negb b) (w_shutdown w) (w_restart w) (w_force w) w);
  c_down : forall f w, A (MShutdown f) -> R w (set_flags (w_enabled w) true (w_restart w)
             (w_force w || match f with Some b => b | None => w_shutdown w end) w);
  c_restart : forall w, A MRestart -> R w (set_flags (w_enabled w) (w_shutdown w) true (w_force w) w);
  c_state : forall n f w, R w (on_task n (fun t => with_state (f t) t) w);
  c_request : forall n p w, A (MRequest n p) -> R w (on_task n (fun t => with_batches (t_batches t ++ [p]) t) (emit (EvRequest n p) w));
  c_term : forall n w, R w (on_task n (with_term false) w);
  c_term_req : forall n w, A (MTerminate n) -> R w (on_task n (with_term true) w);
  c_disabled : forall n b w, A (MDisable n b) -> R w (on_task n (with_disabled b) w);
  c_begin : forall u w, R w (on_run u begin_run w);
  c_over : forall u e w, R w (on_run u (with_phase (Over e)) w);
  c_exc : forall u w, R w (on_run u (with_exc true) w);
  c_stop : forall u w, R w (on_run u (with_stop true) w);
  c_clean : forall cf n w, R w (on_task n (fun t => with_stack (filter (keep_run cf) (t_stack t)) t) w);
  c_drop : forall n w, R w (on_task n drop_exc w) }.
(** ... and when runs are terminated *)
Record calm (A : move -> Prop) (R : world -> world -> Prop) : Prop := Calm {
  calm_still :> still A R;
  c_ev_term : forall n u w, R w (emit (EvTerminate n u) w) }.

Section Steps.
Context {A0 : move -> Prop} {R : world -> world -> Prop} (C : still A0 R).
Let rfl := c_refl A0 R C.
Let tr := c_trans A0 R C.

Lemma steps_ret {A} (a : A) : steps R (ret a).
Proof. intro w; apply rfl. Qed.
Lemma steps_raise {A} e : steps R (@raise A e).
Proof. intro w; apply rfl. Qed.
Lemma steps_fuel {A} : steps R (fun w => (w, @OutOfFuel A)).
Proof. intro w; apply rfl. Qed.
Lemma steps_get {A} (f : world -> A) : steps R (get f).
Proof. intro w; apply rfl. Qed.
Lemma steps_get_task n : steps R (get_task n).
Proof. intro w; unfold get_task; destruct (find_task n w); apply rfl. Qed.
Lemma steps_raise_if e : steps R (raise_if e).
Proof. destruct e; [apply steps_raise|apply steps_ret]. Qed.
Lemma steps_ask {A} (f : nat -> A) : steps R (ask f).
Proof. intro w; apply (c_bump A0 R C). Qed.
Lemma steps_bind {A B} (m : M A) (f : A -> M B) :
  steps R m -> (forall a, steps R (f a)) -> steps R (mbind m f).
Proof.
  intros Hm Hf w. specialize (Hm w). unfold mbind. destruct (m w) as [w' [a|e|]]; cbn [fst] in *; auto.
  exact (tr _ _ _ Hm (Hf a w')).
Qed.
Lemma steps_attempt {A} (m : M A) : steps R m -> steps R (attempt m).
Proof. intros Hm w. specialize (Hm w). unfold attempt. destruct (m w) as [w' [a|e|]]; exact Hm. Qed.
Lemma steps_finally {A} (m : M A) f : steps R m -> steps R f -> steps R (finally m f).
Proof.
  intros Hm Hf. apply steps_bind; [apply steps_attempt, Hm|]. intros r. apply steps_bind; [exact Hf|].
  intros _. destruct r; [apply steps_ret|apply steps_raise].
Qed.
Lemma steps_modify f : (forall w, R w (f w)) -> steps R (modify f).
Proof. intros H w; apply H. Qed.
Lemma steps_modify2 f g : (forall w, R w (g (f w))) -> steps R (modify f ;; modify g).
Proof. intros H w; apply H. Qed.
Lemma steps_for_each f ns : (forall n, steps R (f n)) -> steps R (for_each f ns).
Proof.
  intros H; induction ns as [|n ns IH]; [apply steps_ret|].
  cbn [for_each]. apply steps_bind; [apply H|intros _; exact IH].
Qed.
(** A statement that uses the current state *)
Lemma steps_with {A B} (f : world -> A) (k : A -> M B) :
  (forall w, R w (fst (k (f w) w))) -> steps R (mbind (get f) k).
Proof. intros H w. unfold mbind, get. apply H. Qed.
End Steps.

Ltac st C :=
  repeat lazymatch goal with
    | |- steps _ (ret _) => apply (steps_ret C)
    | |- steps _ (raise _) => apply (steps_raise C)
    | |- steps _ (fun w => (w, OutOfFuel)) => apply (steps_fuel C)
    | |- steps _ (get _) => apply (steps_get C)
    | |- steps _ (get_task _) => apply (steps_get_task C)
    | |- steps _ (raise_if _) => apply (steps_raise_if C)
    | |- steps _ (ask _) => apply (steps_ask C)
    | |- steps _ (mbind _ _) => apply (steps_bind C); [|intro]
    | |- steps _ (attempt _) => apply steps_attempt
    | |- steps _ (finally _ _) => apply (steps_finally C)
    | |- steps _ (modify _) => apply steps_modify; intro
    end.

Lemma set_status_log st l n a t t' rid ok st' l' r :
  set_status st l n a t t' rid ok = (st', l', r) -> exists x, l' = l ++ x.
Proof.
  unfold set_status. destruct ok; [|destruct (action_eqb a ARun)]; intros H; inversion H; subst;
    [eexists; reflexivity| |]; exists []; now rewrite app_nil_r.
Qed.
Lemma set_cached_log st l n t t' ok st' l' r :
  set_cached st l n t t' ok = (st', l', r) -> exists x, l' = l ++ x.
Proof.
  unfold set_cached. destruct max_action as [[[] ?]|]; intros H;
    try (inversion H; subst; exists []; now rewrite app_nil_r).
  eapply set_status_log; exact H.
Qed.

Section Calm.
Context {A0 : move -> Prop} {R : world -> world -> Prop} (C : still A0 R) (orc : oracle) (cf : config).
Context (HA : forall k m, In m (o_env orc k) -> A0 m).

(** A status change with the log computed from the current one *)
Lemma steps_status n (f : tstate -> log -> Z -> bool -> tstate * log * result unit) :
  (forall st l t ok st' l' r, f st l t ok = (st', l', r) -> exists x, l' = l ++ x) ->
  steps R (ok <- ask (o_write orc) ;; t <- get_task n ;; w <- get (fun w => w) ;;
    let '(st, l, r) := f (t_state t) (w_log w) (w_clock w) ok in
    modify (set_log l) ;; modify (on_task n (with_state st)) ;;
    match r with Ok tt => ret tt | Err e => raise e end).
Proof.
  intros Hf. apply (steps_bind C); [apply (steps_ask C)|]. intros ok.
  apply (steps_bind C); [apply (steps_get_task C)|]. intros t.
  apply steps_with. intros w. destruct (f _ _ _ _) as [[st l] r] eqn:E.
  destruct (Hf _ _ _ _ _ _ _ E) as [x ->].
  unfold mbind, modify. apply (c_trans A0 R C) with (set_log (w_log w ++ x) w); [apply (c_log A0 R C)|].
  apply (c_trans A0 R C) with (on_task n (with_state st) (set_log (w_log w ++ x) w)); [apply (c_state A0 R C n (fun _ => st))|].
  destruct r as [[]|e]; apply (c_refl A0 R C).
Qed.
Lemma steps_set_status n a rid : steps R (set_status_m orc n a rid).
Proof.
  apply (steps_status n (fun st l t ok => set_status st l n a t t rid ok)).
  intros st l t ok st' l' r. apply set_status_log.
Qed.
Lemma steps_log_record q : steps R (log_record_m orc q).
Proof.
  apply (steps_status (r_task (q_rec q))
    (fun st l t ok => log_record st l (r_task (q_rec q)) (r_action (q_rec q)) (r_created (q_rec q)) (r_run_id (q_rec q)) ok)).
  intros st l t ok st' l' r. apply set_status_log.
Qed.
Lemma steps_set_cached n : steps R (set_cached_m orc n).
Proof.
  apply (steps_status n (fun st l t ok => set_cached st l n t t ok)).
  intros st l t ok st' l' r. apply set_cached_log.
Qed.
Lemma steps_child n a rid v : steps R (set_status_child n a rid v).
Proof. apply steps_with. intros w. apply (c_queue A0 R C). Qed.
Lemma steps_log_action ch n a rid v : steps R (log_action orc ch n a rid v).
Proof.
  unfold log_action. apply (steps_bind C).
  - destruct ch; [apply steps_child|apply steps_set_status].
  - intros _. destruct (_ && _); [apply steps_modify, (c_term A0 R C)|apply (steps_ret C)].
Qed.
Lemma steps_return n v : steps R (handle_return n v).
Proof. apply steps_with. intros w. apply (c_returns A0 R C). Qed.
Lemma steps_run_body ch x n rid s : steps R (run_body orc ch x n rid s).
Proof.
  unfold run_body. apply (steps_finally C).
  - destruct (s_exec s) as [e|].
    + assert (F : steps R (match s_failure s with
             | Some CancelledError => raise CancelledError
             | _ => log_action orc ch n AFail rid 0 ;;
                    match x with None => raise e | Some _ => ret tt end
             end)).
      { destruct (s_failure s) as [[]|]; st C; try apply steps_log_action; destruct x; st C. }
      destruct e; try exact F; st C; apply steps_log_action.
    + apply (steps_bind C).
      * destruct ch; st C. apply steps_return.
      * intros _. apply steps_log_action.
  - st C.
Qed.
Lemma steps_run_as_async ch x n rid s : steps R (run_as_async orc ch x n rid s).
Proof. unfold run_as_async, run_setup. st C. apply steps_run_body. Qed.
Lemma steps_thread_code n u rid s : steps R (thread_code orc n u rid s).
Proof.
  unfold thread_code. st C; [apply steps_run_as_async|].
  destruct a as [[]|e]; st C. destruct (is_exception e); st C; [apply steps_log_action|].
  destruct a as [[]|[]]; st C. apply (c_exc A0 R C).
Qed.
Lemma steps_process_code n rid s : steps R (process_code orc n rid s).
Proof.
  unfold process_code. st C; [apply steps_run_as_async|].
  destruct a as [[]|e]; st C. destruct (is_exception e); st C. apply steps_log_action.
Qed.
Lemma steps_end_coroutine u m : steps R m -> steps R (end_coroutine u m).
Proof. intros H. unfold end_coroutine. st C; [exact H|apply (c_over A0 R C)]. Qed.
Lemma steps_enter u s : steps R (enter u s).
Proof.
  unfold enter, run_setup. st C. destruct a; st C; [apply (c_begin A0 R C)|apply (c_over A0 R C)].
Qed.
Lemma steps_move m : A0 m -> steps R (do_move orc m).
Proof using C.
  intros HM. destruct m; cbn [do_move].
  - apply steps_modify. intros w. now apply (c_clock A0 R C).
  - apply steps_modify2. intros w. now apply (c_request A0 R C).
  - apply steps_modify. intros w. now apply (c_term_req A0 R C).
  - apply steps_modify. intros w. now apply (c_disabled A0 R C).
  - apply steps_modify. intros w. now apply (c_hold A0 R C).
  - apply steps_modify. intros w. now apply (c_down A0 R C).
  - apply steps_modify. intros w. now apply (c_restart A0 R C).
  - st C. destruct (find_run uid a) as [[t r]|]; [|st C].
    destruct (_ && _); [apply steps_enter|st C].
  - st C. destruct (find_run uid a) as [[t r]|]; [|st C].
    destruct (_ && _); [apply steps_end_coroutine, steps_run_body|st C].
  - st C. destruct (w_orphans a) as [|[n r] o]; st C; [apply (c_orphans A0 R C)|apply steps_run_as_async].
  - st C. destruct (find_run uid a) as [[t r]|]; [|st C].
    destruct (_ && _); [apply steps_end_coroutine, steps_thread_code|st C].
  - st C. destruct (find_run uid a) as [[t r]|]; [|st C].
    destruct (_ && _); [apply steps_end_coroutine, steps_process_code|st C].
  - st C. destruct (find_run uid a) as [[t r]|]; [|st C].
    destruct (_ && _); [|st C]. apply steps_modify, (c_over A0 R C).
Qed.
Lemma steps_moves ms : (forall m, In m ms -> A0 m) -> steps R (do_moves orc ms).
Proof using C.
  induction ms as [|m ms IH]; intros HM; cbn [do_moves]; st C; [apply steps_move, HM; now left|].
  apply IH. intros m' Hm'. apply HM. now right.
Qed.
Lemma steps_env : steps R (env orc).
Proof.
  intros w. unfold env, mbind, ask. apply (c_trans A0 R C) with (bump w); [apply (c_bump A0 R C)|].
  apply steps_moves. intros m. apply HA.
Qed.

Lemma steps_get_run_id : steps R (get_run_id orc).
Proof. unfold get_run_id. st C. destruct a; st C. Qed.
Lemma steps_lock fuel n u err : steps R (lock_to_run_log orc fuel n u err).
Proof.
  revert err; induction fuel as [|fuel IH]; intros err; cbn [lock_to_run_log]; [st C|].
  st C; [apply steps_env|]. destruct (w_queue a0) as [|q rest]; st C.
  - destruct (is_alive a1); [apply IH|]. st C. apply (c_log A0 R C).
  - apply (c_queue A0 R C).
  - apply steps_log_record.
  - destruct (action_eqb _ _); [st C|apply IH].
Qed.
Lemma steps_is_runnable n : steps R (is_runnable orc n).
Proof.
  unfold is_runnable. st C. destruct (t_batches a); [|st C]. destruct (t_disabled a); [st C|].
  destruct (tc_always_false (t_cfg a)); st C. destruct a1; st C.
Qed.
Lemma steps_terminate_run_obj u : steps R (terminate_run_obj orc u).
Proof.
  unfold terminate_run_obj. st C. destruct (find_run u a) as [[t r]|]; [|st C].
  destruct (rn_kind r); st C.
  - destruct (rn_phase r) as [| |[e|]]; st C.
    + apply (c_over A0 R C).
    + apply steps_env.
    + destruct (find_run u a2) as [[t' r']|]; [|st C].
      destruct (rn_phase r') as [| |[e|]]; st C; try (apply steps_end_coroutine, steps_run_body);
        destruct (find_run u a4) as [[t'' r'']|]; st C; destruct (rn_phase r'') as [| |[e|]]; st C.
  - apply (c_stop A0 R C).
  - destruct (run_alive r); st C. apply (c_over A0 R C).
Qed.
Lemma steps_clean n : steps R (clean_run_stack cf n).
Proof. apply steps_modify, (c_clean A0 R C). Qed.
Lemma steps_check_exceptions n : steps R (check_exceptions n).
Proof. unfold check_exceptions. st C. destruct (drop_first_exc _); st C. apply (c_drop A0 R C). Qed.

(** The scheduler's functions that start nothing *)
Lemma steps_tasks : steps R tasks.
Proof. apply (steps_get C). Qed.
Lemma steps_check_task_cond n : steps R (check_task_cond orc cf n).
Proof.
  unfold check_task_cond. st C; [apply steps_is_runnable|]. destruct a as [b|e]; st C. destruct (_ || _); st C.
Qed.
Lemma steps_is_task_runnable n : steps R (is_task_runnable orc cf n).
Proof.
  unfold is_task_runnable. st C.
  - destruct (exec_eqb _ _); unfold has_free_processors; st C.
  - destruct a0; cbn [negb]; st C; [apply steps_env|]. destruct (_ && _); st C; [apply steps_env|apply steps_check_task_cond].
Qed.
Lemma steps_handle_logs fuel : steps R (handle_logs orc cf fuel).
Proof.
  induction fuel as [|fuel IH]; cbn [handle_logs]; st C; [apply steps_env|].
  destruct (w_queue a0) as [|q rest]; st C.
  - apply (c_queue A0 R C).
  - destruct (q_return q); [destruct (action_eqb _ _)|]; st C. apply steps_return.
  - apply steps_log_record.
  - destruct a4 as [?|e]; [|destruct (_ || _)]; st C.
  - exact IH.
Qed.
Lemma steps_check_thread_errors : steps R (check_thread_errors cf).
Proof.
  unfold check_thread_errors. destruct (cf_silence_logging cf); st C; [apply steps_tasks|].
  apply (steps_for_each C). apply steps_check_exceptions.
Qed.
Lemma steps_hook : steps R (hook orc).
Proof. unfold hook. st C. Qed.
Lemma steps_wait_task_alive fuel : steps R (wait_task_alive orc fuel).
Proof.
  induction fuel as [|fuel IH]; cbn [wait_task_alive]; st C. destruct (_ <? _); st C; [apply steps_env|exact IH].
Qed.
Lemma steps_check_shut_cond : steps R (check_shut_cond orc).
Proof. unfold check_shut_cond. st C. destruct a; st C. destruct a; st C. Qed.
End Calm.

(** The runs of one task are terminated *)
Section TerminateOne.
Context {A0 : move -> Prop} {R : world -> world -> Prop} (C : still A0 R) (orc : oracle) (cf : config).
Context (HA : forall k m, In m (o_env orc k) -> A0 m) (n : Z) (ET : forall u w, R w (emit (EvTerminate n u) w)).

Lemma one_terminate_run r : steps R (terminate_run orc n r).
Proof.
  unfold terminate_run. st C; [apply ET|apply (steps_terminate_run_obj C _ HA)|].
  destruct a0 as [?|[]]; st C; try apply (steps_log_action C).
  destruct (exec_eqb _ _); st C. apply (steps_log_action C).
Qed.
Lemma one_terminate_each rs : steps R (terminate_each orc n rs).
Proof.
  induction rs as [|r rs IH]; cbn [terminate_each]; st C; [apply one_terminate_run|apply (steps_env C _ HA)|exact IH].
Qed.
Lemma one_terminate_all : steps R (terminate_all_runs orc cf n).
Proof.
  unfold terminate_all_runs. st C; [apply one_terminate_each|apply (steps_clean C)|apply (c_term A0 R C)].
Qed.
Lemma one_terminate_late now d rs : steps R (terminate_late orc n now d rs).
Proof.
  induction rs as [|r rs IH]; cbn [terminate_late]; st C; [|exact IH].
  destruct (_ && _); st C; [apply one_terminate_run|apply (steps_env C _ HA)].
Qed.
Lemma one_check_termination : steps R (check_termination orc cf n).
Proof.
  unfold check_termination. st C.
  - destruct a as [b|e]; st C. destruct (_ || _); st C.
  - destruct (t_term a1); [apply one_terminate_all|]. destruct a0; [apply one_terminate_all|].
    st C. destruct (tc_permanent _); st C. apply one_terminate_late.
Qed.
Lemma one_wait_turn : steps R (wait_turn orc cf n).
Proof. unfold wait_turn. st C. destruct (tc_permanent _); [apply one_terminate_all|apply one_check_termination]. Qed.
End TerminateOne.

Section Terminate.
Context {A0 : move -> Prop} {R : world -> world -> Prop} (C : calm A0 R) (orc : oracle) (cf : config).
Context (HA : forall k m, In m (o_env orc k) -> A0 m).

Lemma steps_terminate_run n r : steps R (terminate_run orc n r).
Proof. apply (one_terminate_run C _ HA). apply (c_ev_term _ _ C). Qed.
Lemma steps_terminate_each n rs : steps R (terminate_each orc n rs).
Proof. apply (one_terminate_each C _ HA). apply (c_ev_term _ _ C). Qed.
Lemma steps_terminate_all n : steps R (terminate_all_runs orc cf n).
Proof. apply (one_terminate_all C _ _ HA). apply (c_ev_term _ _ C). Qed.
Lemma steps_terminate_late n now d rs : steps R (terminate_late orc n now d rs).
Proof. apply (one_terminate_late C _ HA). apply (c_ev_term _ _ C). Qed.
Lemma steps_check_termination n : steps R (check_termination orc cf n).
Proof. apply (one_check_termination C _ _ HA). apply (c_ev_term _ _ C). Qed.
Lemma steps_terminate_if_alive n : steps R (terminate_if_alive orc cf n).
Proof. unfold terminate_if_alive. st C. destruct (is_alive a); st C. apply steps_terminate_all. Qed.
Lemma steps_terminate_everything : steps R (terminate_everything orc cf).
Proof.
  unfold terminate_everything. st C; [apply (steps_tasks C)|]. apply (steps_for_each C), steps_terminate_if_alive.
Qed.
Lemma steps_wait_turn n : steps R (wait_turn orc cf n).
Proof. apply (one_wait_turn C _ _ HA). apply (c_ev_term _ _ C). Qed.
Lemma steps_wait_for_finish fuel : steps R (wait_for_finish orc cf fuel).
Proof.
  induction fuel as [|fuel IH]; cbn [wait_for_finish]; st C. destruct (_ =? _); st C;
    [apply (steps_env C _ HA)|apply (steps_handle_logs C _ _ HA)|apply (steps_tasks C)|apply (steps_for_each C), steps_wait_turn|exact IH].
Qed.
Lemma steps_shut_down_tasks fuel e : steps R (shut_down_tasks orc cf fuel e).
Proof.
  revert e; induction fuel as [|fuel IH]; intros e; cbn [shut_down_tasks]; st C.
  destruct (_ && _); [|apply steps_terminate_everything]. st C; [apply steps_wait_for_finish|].
  destruct a0 as [?|e']; [st C|]. destruct (is_exception e'); st C. apply IH.
Qed.
End Terminate.

(** * Starting a run.  [R1] relates the states around the one push onto the
    run stack, [R0] those around everything else. *)
Record push_rel (R0 R1 : world -> world -> Prop) (n : Z) (K : run -> Prop) : Prop := PushRel {
  sr_sub : forall a b, R0 a b -> R1 a b;
  sr_l : forall a b c, R0 a b -> R1 b c -> R1 a c;
  sr_r : forall a b c, R1 a b -> R0 b c -> R1 a c;
  sr_main : forall w, R0 w (on_task n (fun t =>
              with_stack (filter (fun r => negb (exec_eqb (rn_kind r) XMain)) (t_stack t)) t) w);
  sr_push : forall r w, K r -> R1 w (on_task n (fun t => with_stack (t_stack t ++ [r]) t) w) }.
Record start_rel (R0 R1 : world -> world -> Prop) (n : Z) (K : run -> Prop) : Prop := StartRel {
  sr_pushes : push_rel R0 R1 n K;
  sr_ev : forall w, R0 w (emit (EvStart n (w_uid w)) (set_uid (S (w_uid w)) w));
  sr_take : forall t p rest w, find_task n w = Some t -> t_batches t = p :: rest ->
              R0 w (emit (EvTake n (Some p)) (on_task n (with_batches rest) w));
  sr_take0 : forall w, R0 w (emit (EvTake n None) w) }.

Section Push.
Context {A0 : move -> Prop} {R0 R1 : world -> world -> Prop} (C : still A0 R0) {n : Z} {K : run -> Prop}
  (S : push_rel R0 R1 n K) (orc : oracle) (cf : config) (HA : forall k m, In m (o_env orc k) -> A0 m).

Lemma steps_sub {A} (m : M A) : steps R0 m -> steps R1 m.
Proof using S. intros H w. apply (sr_sub _ _ _ _ S), H. Qed.
Lemma steps_bind_l {A B} (m : M A) (f : A -> M B) :
  steps R0 m -> (forall a, steps R1 (f a)) -> steps R1 (mbind m f).
Proof using S.
  intros Hm Hf w. specialize (Hm w). unfold mbind. destruct (m w) as [w' [a|e|]]; cbn [fst] in *;
    try (apply (sr_sub _ _ _ _ S), Hm).
  exact (sr_l _ _ _ _ S _ _ _ Hm (Hf a w')).
Qed.
Lemma steps_bind_r {A B} (m : M A) (f : A -> M B) :
  steps R1 m -> (forall a, steps R0 (f a)) -> steps R1 (mbind m f).
Proof using S.
  intros Hm Hf w. specialize (Hm w). unfold mbind. destruct (m w) as [w' [a|e|]]; cbn [fst] in *; auto.
  exact (sr_r _ _ _ _ S _ _ _ Hm (Hf a w')).
Qed.
Lemma steps_push r : K r -> steps R1 (push_run n r).
Proof using S. intros H. apply steps_modify. intros w. now apply (sr_push _ _ _ _ S). Qed.

Lemma steps_launch fuel x uid t0 rid : (forall r, rn_kind r = x -> rn_uid r = uid -> K r) -> steps R1 (launch orc fuel x n uid t0 rid).
Proof using C S HA.
  intros HK. destruct x; cbn [launch].
  - apply steps_bind_l; [apply steps_modify; intro; apply (c_orphans A0 R0 C)|intros _].
    apply steps_bind_r; [apply steps_push, HK; reflexivity|intros _]. unfold run_setup.
    st C; [apply (steps_log_action C)|apply (c_orphans A0 R0 C)|apply (steps_env C _ HA)|apply (steps_env C _ HA)|apply (steps_run_body C)].
  - apply steps_bind_r; [apply steps_push, HK; reflexivity|intros _]. apply (steps_log_action C).
  - apply steps_bind_l; [apply (steps_ask C)|intros e].
    apply steps_bind_l; [apply (steps_raise_if C)|intros _].
    apply steps_bind_l; [apply (steps_ask C)|intros [e'|]].
    + apply steps_bind_r; [apply steps_push, HK; reflexivity|intros _]. apply (steps_raise C).
    + apply steps_bind_r; [apply steps_push, HK; reflexivity|intros _].
      st C; [apply (c_state A0 R0 C)|apply (steps_log_action C)|].
      destruct a0; st C; [apply (c_exc A0 R0 C)|apply (steps_log_action C)|apply (c_over A0 R0 C)].
  - apply steps_bind_l; [apply (steps_ask C)|intros e].
    apply steps_bind_l; [apply (steps_raise_if C)|intros _].
    apply steps_bind_l; [apply (steps_ask C)|intros [e'|]].
    + apply steps_bind_r; [apply steps_push, HK; reflexivity|intros _]. apply (steps_raise C).
    + apply steps_bind_l; [apply (steps_ask C)|intros b].
      apply steps_bind_r; [apply steps_push, HK; reflexivity|intros _].
      st C; [destruct b; st C; apply (steps_log_action C)|apply (steps_lock C _ HA)].
Qed.
Lemma steps_start_failed x rid e : steps R0 (start_failed orc x n rid e).
Proof using C.
  assert (H : steps R0 (rid <- match rid with Some i => ret i | None => get_run_id orc end ;;
      b <- status_is_run n ;;
      (if b then ret tt else log_action orc false n ARun (Some rid) 0) ;;
      log_action orc false n AFail (Some rid) 0 ;;
      @raise unit TaskSetupError)).
  { unfold status_is_run. st C; [destruct rid; st C; apply (steps_get_run_id C)| |apply (steps_log_action C)].
    destruct a0; st C; apply (steps_log_action C). }
  destruct e; try exact H; unfold start_failed, status_is_run; st C.
  destruct (_ && _); st C; apply (steps_log_action C).
Qed.
End Push.

Section Start.
Context {A0 : move -> Prop} {R0 R1 : world -> world -> Prop} (C : still A0 R0) {n : Z} {K : run -> Prop}
  (S : start_rel R0 R1 n K) (orc : oracle) (cf : config) (HA : forall k m, In m (o_env orc k) -> A0 m).
Let P := sr_pushes _ _ _ _ S.

Lemma steps_direct : steps R0 (get_direct_params n).
Proof using C S HA.
  intros w. unfold get_direct_params, mbind, get_task. destruct (find_task n w) as [t|] eqn:F; [|apply (c_refl A0 R0 C)].
  destruct (t_batches t) as [|p rest] eqn:B.
  - apply (sr_take0 _ _ _ _ S).
  - exact (sr_take _ _ _ _ S t p rest w F B).
Qed.
Lemma steps_fresh {A} (k : nat -> M A) : (forall uid, steps R1 (k uid)) ->
  steps R1 (uid <- get w_uid ;; modify (set_uid (Datatypes.S uid)) ;; modify (emit (EvStart n uid)) ;; k uid).
Proof using S.
  intros H w. apply (sr_l _ _ _ _ P) with (emit (EvStart n (w_uid w)) (set_uid (Datatypes.S (w_uid w)) w));
    [apply (sr_ev _ _ _ _ S)|apply H].
Qed.
Lemma start_async_at fuel w : (forall t, find_task n w = Some t -> forall r, rn_kind r = get_execution cf t -> K r) ->
  R1 w (fst (start_async orc cf fuel n w)).
Proof using C S HA.
  intros HK. unfold start_async. unfold mbind at 1, get_task.
  destruct (find_task n w) as [t|] eqn:F; [|apply (sr_sub _ _ _ _ P), (c_refl A0 R0 C)].
  specialize (HK t eq_refl).
  match goal with |- R1 w (fst (?m w)) => enough (steps R1 m) as H by apply H end.
  apply (steps_bind_l P); [apply (steps_get C)|intros t0]. apply steps_fresh. intros uid.
  unfold finally. apply (steps_bind_r P).
  - apply steps_attempt. apply (steps_bind_l P).
    + st C; [apply steps_direct|apply (steps_get_run_id C)].
    + intros [rid|e]; [|apply (steps_sub P), (steps_start_failed C)].
      apply (steps_bind_r P); [apply steps_attempt, (steps_launch C P _ HA); intros r0 Hr0 _; now apply HK|].
      intros [?|e]; [st C|apply (steps_start_failed C)].
  - intros r. st C; [apply (sr_main _ _ _ _ P)|]. destruct r; st C.
Qed.
Lemma run_task_at fuel w : (forall t, find_task n w = Some t -> forall r, rn_kind r = get_execution cf t -> K r) ->
  R1 w (fst (run_task orc cf fuel n w)).
Proof using C S HA.
  intros HK. unfold run_task. pose proof (start_async_at fuel w HK) as H.
  unfold mbind, attempt. destruct (start_async orc cf fuel n w) as [w' [a|e|]]; cbn [fst] in *; try exact H.
  destruct e; try exact H; [destruct (cf_silence_prerun cf)|destruct (cf_silence_logging cf)]; exact H.
Qed.
End Start.

(** A start guarded by the scheduler's check *)
Definition guarded (orc : oracle) (cf : config) (fuel : nat) (n : Z) : M unit :=
  b <- is_task_runnable orc cf n ;; env orc ;; if b then run_task orc cf fuel n else ret tt.
Lemma steps_guarded {A R} (C : still A R) n (S : start_rel R R n (fun _ => True)) orc cf
  (HA : forall k m, In m (o_env orc k) -> A m) fuel : steps R (guarded orc cf fuel n).
Proof.
  unfold guarded. st C; [apply (steps_is_task_runnable C _ _ HA)|apply (steps_env C _ HA)|].
  destruct a; st C. intros w. now apply (run_task_at C S _ _ HA).
Qed.

(** Relations that every function of the scheduler respects if guarded starts do *)
Record respects (A : move -> Prop) (R : world -> world -> Prop) : Prop := Respects {
  rs_calm : calm A R;
  rs_consider : forall n b w, R w (emit (EvConsider n b) w);
  rs_cycle : forall w, R w (emit EvCycle w);
  rs_startup : forall w, R w (emit EvStartup w);
  rs_started : forall w, R w (emit EvStarted w);
  rs_shutdown : forall w, R w (emit EvShutdown w);
  rs_cycles : forall k w, R w (set_cycles k w);
  rs_flags : forall w, R w (set_flags true false false (w_force w) w);
  rs_request : forall n t w, find_task n w = Some t -> t_disabled t = false ->
    R w (on_task n (fun t => with_batches (t_batches t ++ [[]]) t) (emit (EvRequest n []) w)) }.

(** The same for what does not begin a cycle *)
Record heeds (A : move -> Prop) (R : world -> world -> Prop) : Prop := Heeds {
  hd_calm : calm A R;
  hd_consider : forall n b w, R w (emit (EvConsider n b) w);
  hd_shutdown : forall w, R w (emit EvShutdown w);
  hd_request : forall n t w, find_task n w = Some t -> t_disabled t = false ->
    R w (on_task n (fun t => with_batches (t_batches t ++ [[]]) t) (emit (EvRequest n []) w)) }.
Lemma respects_heeds A R : respects A R -> heeds A R.
Proof. intros []. now constructor. Qed.
Coercion respects_heeds : respects >-> heeds.

Section Heeds.
Context {A0 : move -> Prop} {R : world -> world -> Prop} (HD : heeds A0 R) (orc : oracle) (cf : config).
Context (HA : forall k m, In m (o_env orc k) -> A0 m).
Context (G : forall fuel n, steps R (guarded orc cf fuel n)).
Let C := hd_calm A0 R HD.

Lemma steps_cycle_task fuel n : steps R (cycle_task orc cf fuel n).
Proof using HD G HA.
  unfold cycle_task. st C;
    [apply (steps_env C _ HA)|apply (steps_handle_logs C _ _ HA)|apply (steps_clean C)|apply (steps_env C _ HA)| |apply (steps_env C _ HA)|apply (steps_check_termination C _ _ HA)].
  destruct (_ || _); st C; [apply (hd_consider A0 R HD)|]. destruct a4; [apply G|st C].
Qed.
Lemma steps_run_special fuel n : steps R (run_special orc cf fuel n).
Proof using HD G HA.
  intros w. unfold run_special. unfold mbind at 1, get_task.
  destruct (find_task n w) as [t|] eqn:F; [|apply (c_refl A0 R C)].
  destruct (tc_always_false (t_cfg t)) eqn:E1; cbn [andb]; [|apply (G fuel n)].
  destruct (t_disabled t) eqn:E2; cbn [negb]; [apply (G fuel n)|].
  eapply (c_trans A0 R C); [exact (hd_request A0 R HD n t w F E2)|apply (G fuel n)].
Qed.
Lemma steps_startup_task fuel n : steps R (startup_task orc cf fuel n).
Proof using HD G HA.
  unfold startup_task. st C; [apply (steps_env C _ HA)|apply (steps_set_cached C)| |].
  - destruct a0 as [?|[]]; st C. destruct (cf_silence_logging cf); st C.
  - destruct (tc_startup _); st C. apply steps_run_special.
Qed.
Lemma steps_shutdown_task fuel n : steps R (shutdown_task orc cf fuel n).
Proof using HD G HA. unfold shutdown_task. st C. destruct (tc_shutdown _); st C. apply steps_run_special. Qed.
Lemma steps_run_shutdown_tasks fuel : steps R (run_shutdown_tasks orc cf fuel).
Proof using HD G HA. unfold run_shutdown_tasks. st C; [apply (steps_tasks C)|]. apply (steps_for_each C), steps_shutdown_task. Qed.
Lemma steps_shut_down fuel e : steps R (shut_down orc cf fuel e).
Proof using HD G HA.
  unfold shut_down. st C;
    [apply (hd_shutdown A0 R HD)|apply (steps_hook C)|apply steps_run_shutdown_tasks|apply (steps_shut_down_tasks C _ _ HA)
    |apply (steps_wait_task_alive C _ HA)|apply (steps_handle_logs C _ _ HA)|apply (steps_check_thread_errors C)|apply (steps_hook C)].
Qed.
End Heeds.

Section Respects.
Context {A0 : move -> Prop} {R : world -> world -> Prop} (RS : respects A0 R) (orc : oracle) (cf : config).
Context (HA : forall k m, In m (o_env orc k) -> A0 m).
Context (G : forall fuel n, steps R (guarded orc cf fuel n)).
Let C := rs_calm A0 R RS.

Lemma steps_run_cycle fuel : steps R (run_cycle orc cf fuel).
Proof using RS G HA.
  unfold run_cycle. st C;
    [apply (steps_tasks C)|apply (rs_cycle A0 R RS)|apply (steps_hook C)|apply (steps_for_each C), (steps_cycle_task RS _ _ HA G)
    |apply (steps_handle_logs C _ _ HA)|apply (steps_check_thread_errors C)|apply (steps_hook C)|apply (rs_cycles A0 R RS)].
Qed.
Lemma steps_startup fuel : steps R (startup orc cf fuel).
Proof using RS G HA.
  unfold startup. st C;
    [apply (rs_startup A0 R RS)|apply (steps_hook C)|apply (rs_cycles A0 R RS)|apply (steps_tasks C)
    |apply (steps_for_each C), (steps_startup_task RS _ _ HA G)|apply (steps_hook C)|apply (rs_started A0 R RS)].
Qed.
Lemma steps_main_loop fuel : steps R (main_loop orc cf fuel).
Proof using RS G HA.
  induction fuel as [|fuel IH]; cbn [main_loop]; st C; [apply (steps_check_shut_cond C)|].
  destruct a; st C; [apply (steps_env C _ HA)|]. destruct a0; st C. destruct a0; st C; [apply steps_run_cycle|exact IH].
Qed.
Lemma steps_serve fuel : steps R (serve orc cf fuel).
Proof using RS G HA.
  unfold serve. st C; [apply (rs_flags A0 R RS)|apply steps_startup|apply steps_main_loop|apply (steps_shut_down RS _ _ HA G)|].
  destruct a0 as [?|[]]; st C.
Qed.
End Respects.
