(** The functions of the run and scheduler models are made of the changes listed
    here: a relation that these respect is respected by all.  (As in
    [WorldProofs], but the status changes are told apart and records can always
    be written; the moves of the outside are left to the relation.) *)
From Coq Require Import Bool Arith Lia ZifyBool.
From Verif Require Import Model.Base Model.History Model.World Model.Run Model.Scheduler Proofs.WorldProofs Proofs.DependProofs.
Open Scope Z_scope.

(** Records [rs] of the task [n] are written and its status is [st]: what the
    cache says was there before or is in the log. *)
Record writes (n : Z) (t : task) (st : tstate) (rs : log) (w w' : world) : Prop := Writes {
  wr_last : forall b c, ts_last st b = Some c -> ts_last (t_state t) b = Some c \/
    exists r, In r (w_log w') /\ r_task r = n /\ r_action r = b /\ r_created r = c;
  wr_log : w_log w' = w_log w ++ rs;
  wr_tasks : w_tasks w' = map (fun u => if t_name u =? n then with_state st u else u) (w_tasks w);
  wr_trace : exists evs, w_trace w' = EvState (w_tasks w') :: evs ++ w_trace w;
  wr_clock : w_clock w' = w_clock w;
  wr_tick : (w_tick w <= w_tick w')%nat;
  wr_enabled : w_enabled w' = w_enabled w }.

Record base (R : world -> world -> Prop) : Prop := Base {
  b_refl : forall w, R w w;
  b_trans : forall a b c, R a b -> R b c -> R a c;
  b_bump : forall w, R w (bump w);
  b_write : forall n t st rs w w', find_task n w = Some t -> writes n t st rs w w' -> w_queue w' = w_queue w -> R w w';
  b_take : forall q rest t st w w', w_queue w = q :: rest -> find_task (r_task (q_rec q)) w = Some t ->
    writes (r_task (q_rec q)) t st [q_rec q] w w' -> w_queue w' = rest -> R w w';
  b_lose : forall q rest w, w_queue w = q :: rest -> find_task (r_task (q_rec q)) w = None -> R w (set_queue rest w);
  b_lost : forall n w, R w (set_log (w_log w ++ [Rec n AFail (w_clock w) None]) w);
  b_child : forall q w, R w (set_queue (w_queue w ++ [q]) w);
  b_returns : forall n v w, R w (set_returns ((n, v) :: w_returns w) w);
  b_orphans : forall o w, R w (set_orphans o w);
  b_term : forall n w, R w (on_task n (with_term false) w);
  b_begin : forall u w, R w (on_run u begin_run w);
  b_over : forall u e w, R w (on_run u (with_phase (Over e)) w);
  b_exc : forall u w, R w (on_run u (with_exc true) w);
  b_stop : forall u w, R w (on_run u (with_stop true) w);
  b_clean : forall cf n w, R w (on_task n (fun t => with_stack (filter (keep_run cf) (t_stack t)) t) w);
  b_drop : forall n w, R w (on_task n drop_exc w);
  b_ev : forall e w, (forall ts, e = EvState ts -> ts = w_tasks w) -> R w (emit e w);
  b_main : forall n w, R w (on_task n (fun t => with_stack (filter (fun r => negb (exec_eqb (rn_kind r) XMain)) (t_stack t)) t) w);
  b_push : forall n r w, R w (on_task n (fun t => with_stack (t_stack t ++ [r]) t) w);
  b_uid : forall u w, R w (set_uid u w);
  b_cycles : forall k w, R w (set_cycles k w);
  b_start : forall w, R w (set_flags true false false (w_force w) w);
  b_batches : forall n f w, R w (on_task n (fun t => with_batches (f t) t) w) }.

Section Steps.
Context {R : world -> world -> Prop} (C : base R).
Let rfl := b_refl R C.
Let tr := b_trans R C.

Lemma go_ret {A} (a : A) : steps R (ret a).
Proof. intro w; apply rfl. Qed.
Lemma go_raise {A} e : steps R (@raise A e).
Proof. intro w; apply rfl. Qed.
Lemma go_fuel {A} : steps R (fun w => (w, @OutOfFuel A)).
Proof. intro w; apply rfl. Qed.
Lemma go_get {A} (f : world -> A) : steps R (get f).
Proof. intro w; apply rfl. Qed.
Lemma go_get_task n : steps R (get_task n).
Proof. intro w; unfold get_task; destruct (find_task n w); apply rfl. Qed.
Lemma go_raise_if e : steps R (raise_if e).
Proof. destruct e; [apply go_raise|apply go_ret]. Qed.
Lemma go_ask {A} (f : nat -> A) : steps R (ask f).
Proof. intro w; apply (b_bump R C). Qed.
Lemma go_bind {A B} (m : M A) (f : A -> M B) :
  steps R m -> (forall a, steps R (f a)) -> steps R (mbind m f).
Proof.
  intros Hm Hf w. specialize (Hm w). unfold mbind. destruct (m w) as [w' [a|e|]]; cbn [fst] in *; auto.
  exact (tr _ _ _ Hm (Hf a w')).
Qed.
Lemma go_attempt {A} (m : M A) : steps R m -> steps R (attempt m).
Proof. intros Hm w. specialize (Hm w). unfold attempt. destruct (m w) as [w' [a|e|]]; exact Hm. Qed.
Lemma go_finally {A} (m : M A) f : steps R m -> steps R f -> steps R (finally m f).
Proof.
  intros Hm Hf. apply go_bind; [apply go_attempt, Hm|]. intros r. apply go_bind; [exact Hf|].
  intros _. destruct r; [apply go_ret|apply go_raise].
Qed.
Lemma go_modify f : (forall w, R w (f w)) -> steps R (modify f).
Proof. intros H w; apply H. Qed.
Lemma go_modify2 f g : (forall w, R w (g (f w))) -> steps R (modify f ;; modify g).
Proof. intros H w; apply H. Qed.
Lemma go_for_each f ns : (forall n, steps R (f n)) -> steps R (for_each f ns).
Proof.
  intros H; induction ns as [|n ns IH]; [apply go_ret|].
  cbn [for_each]. apply go_bind; [apply H|intros _; exact IH].
Qed.
(** A statement that uses the current state *)
Lemma go_with {A B} (f : world -> A) (k : A -> M B) :
  (forall w, R w (fst (k (f w) w))) -> steps R (mbind (get f) k).
Proof. intros H w. unfold mbind, get. apply H. Qed.
End Steps.

Ltac go C :=
  repeat lazymatch goal with
    | |- steps _ (ret _) => apply (go_ret C)
    | |- steps _ (raise _) => apply (go_raise C)
    | |- steps _ (fun w => (w, OutOfFuel)) => apply (go_fuel C)
    | |- steps _ (get _) => apply (go_get C)
    | |- steps _ (get_task _) => apply (go_get_task C)
    | |- steps _ (raise_if _) => apply (go_raise_if C)
    | |- steps _ (ask _) => apply (go_ask C)
    | |- steps _ (mbind _ _) => apply (go_bind C); [|intro]
    | |- steps _ (attempt _) => apply go_attempt
    | |- steps _ (finally _ _) => apply (go_finally C)
    | |- steps _ (modify _) => apply go_modify; intro
    end.

Section Calm.
Context {R : world -> world -> Prop} (C : base R) (orc : oracle) (cf : config).
Context (HW : forall k, o_write orc k = true).

Lemma map_twice n s (g : task -> task) ts : (forall t, t_name (g t) = t_name t) -> (forall t, with_state s (g t) = with_state s t) ->
  map (fun t => if t_name t =? n then with_state s t else t) (map (fun t => if t_name t =? n then g t else t) ts)
  = map (fun t => if t_name t =? n then with_state s t else t) ts.
Proof using Type.
  intros H K. rewrite map_map. apply map_ext. intros t. destruct (t_name t =? n) eqn:E; [now rewrite H, E, K|now rewrite E].
Qed.
Lemma find_with n s w t : find_task n w = Some t -> find_task n (on_task n (with_state s) w) = Some (with_state s t).
Proof using Type.
  unfold find_task, on_task. cbn. induction (w_tasks w) as [|u l IH]; [discriminate|]. cbn [map find]. destruct (t_name u =? n) eqn:E.
  - intros H. injection H as ->. change (t_name (with_state s t)) with (t_name t). now rewrite E.
  - rewrite E. exact IH.
Qed.
Lemma written n a c rid t w w' st : (forall b, ts_last st b = set_last (ts_last (t_state t)) a (Some c) b) ->
  w_log w' = w_log w ++ [Rec n a c rid] -> w_tasks w' = map (fun u => if t_name u =? n then with_state st u else u) (w_tasks w) ->
  (exists evs, w_trace w' = EvState (w_tasks w') :: evs ++ w_trace w) ->
  w_clock w' = w_clock w -> (w_tick w <= w_tick w')%nat -> w_enabled w' = w_enabled w -> writes n t st [Rec n a c rid] w w'.
Proof using Type.
  intros S L T V K I E. constructor; auto. intros b d H. rewrite S in H. unfold set_last in H. destruct (action_eqb a b) eqn:Ea; [right|now left].
  injection H as <-. exists (Rec n a c rid). split; [rewrite L; apply in_or_app; right; now left|]. split; [reflexivity|]. split; [now destruct a, b|reflexivity].
Qed.
Lemma one_event e (l : list event) : exists evs, e :: l = e :: evs ++ l.
Proof using Type. now exists []. Qed.
Lemma go_set_status n a rid : steps R (set_status_m orc n a rid).
Proof using C HW.
  intros w. unfold set_status_m, mbind at 1, ask. fold (bump w). apply (b_trans R C) with (bump w); [apply (b_bump R C)|]. rewrite HW.
  unfold mbind at 1, get_task. destruct (find_task n (bump w)) as [t|] eqn:F; [|apply (b_refl R C)].
  refine (b_write R C n t (TState (set_last (ts_last (t_state t)) a (Some (w_clock w))) (Some a)) [Rec n a (w_clock w) rid] (bump w) _ F _ _); [|reflexivity].
  apply written; try reflexivity. apply one_event.
Qed.
Lemma record_logged q v t : find_task (r_task (q_rec q)) v = Some t -> log_record_m orc q v =
  (on_task (r_task (q_rec q)) (with_state (TState (set_last (ts_last (t_state t)) (r_action (q_rec q)) (Some (r_created (q_rec q)))) (Some (r_action (q_rec q)))))
     (set_log (w_log v ++ [Rec (r_task (q_rec q)) (r_action (q_rec q)) (r_created (q_rec q)) (r_run_id (q_rec q))]) (bump v)), Returns tt).
Proof using HW.
  intros F. unfold log_record_m. cbv zeta. unfold mbind, ask, get_task, get. fold (bump v). change (find_task (r_task (q_rec q)) (bump v)) with (find_task (r_task (q_rec q)) v).
  rewrite F, HW. reflexivity.
Qed.
(** A record is taken from the queue *)
Lemma taken q rest w mid (k : result unit -> M unit) : w_queue w = q :: rest ->
  (forall v, exists v', mid v = (v', Returns tt) /\ w_log v' = w_log v /\ w_tasks v' = w_tasks v /\ w_trace v' = w_trace v /\
     w_clock v' = w_clock v /\ (w_tick v <= w_tick v')%nat /\ w_enabled v' = w_enabled v /\ w_queue v' = w_queue v) ->
  (forall r, steps R (k r)) ->
  R w (fst ((modify (set_queue rest) ;; get_task (r_task (q_rec q)) ;; mid ;; r <- attempt (log_record_m orc q) ;; k r) w)).
Proof using C HW.
  intros Q HM HK. unfold mbind at 1, modify. set (w0 := set_queue rest w). unfold mbind at 1, get_task.
  change (find_task (r_task (q_rec q)) w0) with (find_task (r_task (q_rec q)) w).
  destruct (find_task (r_task (q_rec q)) w) as [t|] eqn:F; [|exact (b_lose R C q rest w Q F)].
  unfold mbind at 1. destruct (HM w0) as (w1 & -> & L1 & T1 & V1 & K1 & I1 & E1 & Q1).
  assert (F1 : find_task (r_task (q_rec q)) w1 = Some t) by (unfold find_task in *; rewrite T1; exact F).
  unfold mbind at 1, attempt. rewrite (record_logged q w1 t F1). cbv beta iota.
  match goal with |- R w (fst (k (Ok tt) ?v)) => set (w2 := v); apply (b_trans R C) with w2; [|apply HK] end.
  apply (b_take R C q rest t (TState (set_last (ts_last (t_state t)) (r_action (q_rec q)) (Some (r_created (q_rec q)))) (Some (r_action (q_rec q)))) w w2 Q F).
  - replace [q_rec q] with [Rec (r_task (q_rec q)) (r_action (q_rec q)) (r_created (q_rec q)) (r_run_id (q_rec q))] by now destruct (q_rec q).
    apply written.
    + intros b. reflexivity.
    + cbn. now rewrite L1.
    + cbn. now rewrite T1.
    + cbn. rewrite V1. apply one_event.
    + cbn. now rewrite K1.
    + cbn in *. lia.
    + cbn. now rewrite E1.
  - cbn. now rewrite Q1.
Qed.
Lemma go_set_cached n : steps R (set_cached_m orc n).
Proof using C HW.
  intros w. unfold set_cached_m, mbind at 1, ask. fold (bump w). apply (b_trans R C) with (bump w); [apply (b_bump R C)|]. rewrite HW.
  unfold mbind at 1, get_task. destruct (find_task n (bump w)) as [t|] eqn:F; [|apply (b_refl R C)].
  unfold mbind at 1, get. set (v := bump w) in *.
  assert (LR : forall b c, last_from_log (w_log v) n b = Some c -> exists r, In r (w_log v) /\ r_task r = n /\ r_action r = b /\ r_created r = c).
  { intros b c. unfold last_from_log. destruct (get_latest (w_log v) n [b]) as [r|] eqn:E; [|discriminate]. intros H. injection H as <-.
    apply latest_spec in E. exists r. destruct E as (l1 & l2 & -> & [A1 [A2|[]]] & _). split; [apply in_or_app; right; now left|]. repeat split; auto. }
  assert (N : forall s, R v (on_task n (with_state (TState (last_from_log (w_log v) n) s)) (set_log (w_log v) v))).
  { intros s. refine (b_write R C n t (TState (last_from_log (w_log v) n) s) [] v _ F _ _); [|reflexivity].
    constructor; try reflexivity; [|cbn; now rewrite app_nil_r|apply one_event]. intros b c H. right. now apply LR. }
  unfold set_cached. destruct (max_action _ cached_order None) as [[[] c]|]; try exact (N _).
  cbn [set_status mbind modify fst]. unfold mbind, modify. cbn [fst].
  refine (b_write R C n t (TState (set_last (last_from_log (w_log v) n) ACrash (Some (w_clock v))) (Some ACrash)) [Rec n ACrash (w_clock v) None] v _ F _ _); [|reflexivity].
  constructor; try reflexivity; [|apply one_event]. intros b d H. right. cbn in H. unfold set_last in H. destruct (action_eqb ACrash b) eqn:Ea.
  - injection H as <-. exists (Rec n ACrash (w_clock v) None). split; [apply in_or_app; right; now left|]. split; [reflexivity|]. split; [now destruct b|reflexivity].
  - destruct (LR b d H) as (r & I & P). exists r. split; [apply in_or_app; now left|exact P].
Qed.
Lemma go_child n a rid v : steps R (set_status_child n a rid v).
Proof. apply go_with. intros w. apply (b_child R C). Qed.
Lemma go_log_action ch n a rid v : steps R (log_action orc ch n a rid v).
Proof.
  unfold log_action. apply (go_bind C).
  - destruct ch; [apply go_child|apply go_set_status].
  - intros _. destruct (_ && _); [apply go_modify, (b_term R C)|apply (go_ret C)].
Qed.
Lemma go_return n v : steps R (handle_return n v).
Proof. apply go_with. intros w. apply (b_returns R C). Qed.
Lemma go_run_body ch x n rid s : steps R (run_body orc ch x n rid s).
Proof.
  unfold run_body. apply (go_finally C).
  - destruct (s_exec s) as [e|].
    + assert (F : steps R (match s_failure s with
             | Some CancelledError => raise CancelledError
             | _ => log_action orc ch n AFail rid 0 ;;
                    match x with None => raise e | Some _ => ret tt end
             end)).
      { destruct (s_failure s) as [[]|]; go C; try apply go_log_action; destruct x; go C. }
      destruct e; try exact F; go C; apply go_log_action.
    + apply (go_bind C).
      * destruct ch; go C. apply go_return.
      * intros _. apply go_log_action.
  - go C.
Qed.
Lemma go_run_as_async ch x n rid s : steps R (run_as_async orc ch x n rid s).
Proof. unfold run_as_async, run_setup. go C. apply go_run_body. Qed.
Lemma go_thread_code n u rid s : steps R (thread_code orc n u rid s).
Proof.
  unfold thread_code. go C; [apply go_run_as_async|].
  destruct a as [[]|e]; go C. destruct (is_exception e); go C; [apply go_log_action|].
  destruct a as [[]|[]]; go C. apply (b_exc R C).
Qed.
Lemma go_process_code n rid s : steps R (process_code orc n rid s).
Proof.
  unfold process_code. go C; [apply go_run_as_async|].
  destruct a as [[]|e]; go C. destruct (is_exception e); go C. apply go_log_action.
Qed.
Lemma go_end_coroutine u m : steps R m -> steps R (end_coroutine u m).
Proof. intros H. unfold end_coroutine. go C; [exact H|apply (b_over R C)]. Qed.
Lemma go_enter u s : steps R (enter u s).
Proof.
  unfold enter, run_setup. go C. destruct a; go C; [apply (b_begin R C)|apply (b_over R C)].
Qed.
(** The moves that are left to the relation *)
Definition changes (m : move) : Prop :=
  match m with MClock _ | MRequest _ _ | MTerminate _ | MDisable _ _ | MHold _ | MShutdown _ | MRestart => True | _ => False end.
Lemma go_move m : (changes m -> steps R (do_move orc m)) -> steps R (do_move orc m).
Proof using C HW.
  intros HM. destruct m; try (now apply HM); cbn [do_move].
  - go C. destruct (find_run uid a) as [[t r]|]; [|go C].
    destruct (_ && _); [apply go_enter|go C].
  - go C. destruct (find_run uid a) as [[t r]|]; [|go C].
    destruct (_ && _); [apply go_end_coroutine, go_run_body|go C].
  - go C. destruct (w_orphans a) as [|[n r] o]; go C; [apply (b_orphans R C)|apply go_run_as_async].
  - go C. destruct (find_run uid a) as [[t r]|]; [|go C].
    destruct (_ && _); [apply go_end_coroutine, go_thread_code|go C].
  - go C. destruct (find_run uid a) as [[t r]|]; [|go C].
    destruct (_ && _); [apply go_end_coroutine, go_process_code|go C].
  - go C. destruct (find_run uid a) as [[t r]|]; [|go C].
    destruct (_ && _); [|go C]. apply go_modify, (b_over R C).
Qed.
Lemma go_moves ms : (forall m, In m ms -> changes m -> steps R (do_move orc m)) -> steps R (do_moves orc ms).
Proof using C HW.
  induction ms as [|m ms IH]; intros HM; cbn [do_moves]; go C; [apply go_move, HM; now left|].
  apply IH. intros m' Hm'. apply HM. now right.
Qed.
Context (HE : steps R (env orc)).

Lemma go_get_run_id : steps R (get_run_id orc).
Proof. unfold get_run_id. go C. destruct a; go C. Qed.
Lemma go_lock fuel n u err : steps R (lock_to_run_log orc fuel n u err).
Proof.
  revert err; induction fuel as [|fuel IH]; intros err; cbn [lock_to_run_log]; [go C|].
  apply (go_bind C); [exact HE|]. intros _. apply go_with. intros w. destruct (w_queue w) as [|q rest] eqn:Q.
  - match goal with |- R w (fst (?m w)) => enough (steps R m) as H by apply H end. go C. destruct (is_alive a); [apply IH|]. go C. apply (b_lost R C).
  - assert (T := taken q rest w (ret tt) (fun r => let err := match r with Err e => Some e | Ok _ => err end in
          if action_eqb (r_action (q_rec q)) ARun then raise_if err else lock_to_run_log orc fuel n u err) Q).
    refine (T _ _).
    + intros v. exists v. repeat split; lia.
    + intros r. cbv zeta. destruct (action_eqb _ _); [go C|apply IH].
Qed.
Lemma go_is_runnable n : steps R (is_runnable orc n).
Proof.
  unfold is_runnable. go C. destruct (t_batches a); [|go C]. destruct (t_disabled a); [go C|].
  destruct (tc_always_false (t_cfg a)); go C. destruct a1; go C.
Qed.
Lemma go_terminate_run_obj u : steps R (terminate_run_obj orc u).
Proof.
  unfold terminate_run_obj. go C. destruct (find_run u a) as [[t r]|]; [|go C].
  destruct (rn_kind r); go C.
  - destruct (rn_phase r) as [| |[e|]]; go C.
    + apply (b_over R C).
    + exact HE.
    + destruct (find_run u a2) as [[t' r']|]; [|go C].
      destruct (rn_phase r') as [| |[e|]]; go C; try (apply go_end_coroutine, go_run_body);
        destruct (find_run u a4) as [[t'' r'']|]; go C; destruct (rn_phase r'') as [| |[e|]]; go C.
  - apply (b_stop R C).
  - destruct (run_alive r); go C. apply (b_over R C).
Qed.
Lemma go_clean n : steps R (clean_run_stack cf n).
Proof. apply go_modify, (b_clean R C). Qed.
Lemma go_check_exceptions n : steps R (check_exceptions n).
Proof. unfold check_exceptions. go C. destruct (drop_first_exc _); go C. apply (b_drop R C). Qed.

(** The scheduler's functions that start nothing *)
Lemma go_tasks : steps R tasks.
Proof. apply (go_get C). Qed.
Lemma go_check_task_cond n : steps R (check_task_cond orc cf n).
Proof.
  unfold check_task_cond. go C; [apply go_is_runnable|]. destruct a as [b|e]; go C. destruct (_ || _); go C.
Qed.
Lemma go_is_task_runnable n : steps R (is_task_runnable orc cf n).
Proof.
  unfold is_task_runnable. go C.
  - destruct (exec_eqb _ _); unfold has_free_processors; go C.
  - destruct a0; cbn [negb]; go C; [exact HE|]. destruct (_ && _); go C; [exact HE|apply go_check_task_cond].
Qed.
Lemma go_handle_logs fuel : steps R (handle_logs orc cf fuel).
Proof.
  induction fuel as [|fuel IH]; cbn [handle_logs]; [go C|].
  apply (go_bind C); [exact HE|]. intros _. apply go_with. intros w. destruct (w_queue w) as [|q rest] eqn:Q; [apply (b_refl R C)|].
  apply (taken q rest w _ (fun r => (match r with
           | Err e => if negb (cf_silence_logging cf) || negb (is_exception e) then raise e else ret tt
           | Ok _ => ret tt
           end) ;; handle_logs orc cf fuel) Q).
  - intros v. destruct (q_return q); [destruct (action_eqb _ _)|]; (eexists; split; [reflexivity|]; repeat split; cbn; auto).
  - intros r. apply (go_bind C); [|intros _; exact IH]. destruct r as [?|e]; [|destruct (_ || _)]; go C.
Qed.
Lemma go_check_thread_errors : steps R (check_thread_errors cf).
Proof.
  unfold check_thread_errors. destruct (cf_silence_logging cf); go C; [apply go_tasks|].
  apply (go_for_each C). apply go_check_exceptions.
Qed.
Lemma go_hook : steps R (hook orc).
Proof. unfold hook. go C. Qed.
Lemma go_wait_task_alive fuel : steps R (wait_task_alive orc fuel).
Proof.
  induction fuel as [|fuel IH]; cbn [wait_task_alive]; go C. destruct (_ <? _); go C; [exact HE|exact IH].
Qed.
Lemma go_check_shut_cond : steps R (check_shut_cond orc).
Proof. unfold check_shut_cond. go C. destruct a; go C. destruct a; go C. Qed.
End Calm.

(** Terminating *)
Section Terminate.
Context {R : world -> world -> Prop} (C : base R) (orc : oracle) (cf : config).
Context (HW : forall k, o_write orc k = true) (HE : steps R (env orc)).

Lemma go_terminate_run n r : steps R (terminate_run orc n r).
Proof.
  unfold terminate_run. go C; [apply (b_ev R C); discriminate|apply (go_terminate_run_obj C _ HW HE)|].
  destruct a0 as [?|[]]; go C; try apply (go_log_action C _ HW).
  destruct (exec_eqb _ _); go C. apply (go_log_action C _ HW).
Qed.
Lemma go_terminate_each n rs : steps R (terminate_each orc n rs).
Proof.
  induction rs as [|r rs IH]; cbn [terminate_each]; go C; [apply go_terminate_run|exact HE|exact IH].
Qed.
Lemma go_terminate_all n : steps R (terminate_all_runs orc cf n).
Proof.
  unfold terminate_all_runs. go C; [apply go_terminate_each|apply (go_clean C)|apply (b_term R C)].
Qed.
Lemma go_terminate_late n now d rs : steps R (terminate_late orc n now d rs).
Proof.
  induction rs as [|r rs IH]; cbn [terminate_late]; go C; [|exact IH].
  destruct (_ && _); go C; [apply go_terminate_run|exact HE].
Qed.
Lemma go_check_termination n : steps R (check_termination orc cf n).
Proof.
  unfold check_termination. go C.
  - destruct a as [b|e]; go C. destruct (_ || _); go C.
  - destruct (t_term a1); [apply go_terminate_all|]. destruct a0; [apply go_terminate_all|].
    go C. destruct (tc_permanent _); go C. apply go_terminate_late.
Qed.
Lemma go_wait_turn n : steps R (wait_turn orc cf n).
Proof. unfold wait_turn. go C. destruct (tc_permanent _); [apply go_terminate_all|apply go_check_termination]. Qed.
Lemma go_terminate_if_alive n : steps R (terminate_if_alive orc cf n).
Proof. unfold terminate_if_alive. go C. destruct (is_alive a); go C. apply go_terminate_all. Qed.
Lemma go_terminate_everything : steps R (terminate_everything orc cf).
Proof.
  unfold terminate_everything. go C; [apply (go_tasks C)|]. apply (go_for_each C), go_terminate_if_alive.
Qed.
Lemma go_wait_for_finish fuel : steps R (wait_for_finish orc cf fuel).
Proof.
  induction fuel as [|fuel IH]; cbn [wait_for_finish]; go C. destruct (_ =? _); go C;
    [exact HE|apply (go_handle_logs C _ _ HW HE)|apply (go_tasks C)|apply (go_for_each C), go_wait_turn|exact IH].
Qed.
Lemma go_shut_down_tasks fuel e : steps R (shut_down_tasks orc cf fuel e).
Proof.
  revert e; induction fuel as [|fuel IH]; intros e; cbn [shut_down_tasks]; go C.
  destruct (_ && _); [|apply go_terminate_everything]. go C; [apply go_wait_for_finish|].
  destruct a0 as [?|e']; [go C|]. destruct (is_exception e'); go C. apply IH.
Qed.
End Terminate.


(** * Starting *)
Section Start.
Context {R : world -> world -> Prop} (C : base R) (orc : oracle) (cf : config).
Context (HW : forall k, o_write orc k = true) (HE : steps R (env orc)).

Lemma go_push n r : steps R (push_run n r).
Proof. apply go_modify. intros w. apply (b_push R C). Qed.
(** A thread is noted as run, and then recorded *)
Lemma thread_noted n rid w : R w (fst ((modify (fun w => on_task n (fun t =>
            with_state (TState (set_last (ts_last (t_state t)) ARun (Some (w_clock w))) (ts_status (t_state t))) t) w) ;;
          attempt (log_action orc false n ARun (Some rid) 0)) w)).
Proof using C HW.
  unfold mbind at 1, modify. set (g := fun t => with_state _ t).
  assert (FG : find_task n (bump (on_task n g w)) = option_map g (find_task n w)).
  { unfold find_task, bump, on_task. cbn. induction (w_tasks w) as [|u l IH]; [reflexivity|]. cbn [map find]. destruct (t_name u =? n) eqn:E.
    - change (t_name (g u)) with (t_name u). now rewrite E.
    - rewrite E. exact IH. }
  unfold attempt, log_action. cbn [action_eqb andb]. unfold mbind, set_status_m, mbind, ask. fold (bump (on_task n g w)). rewrite HW.
  unfold get_task. rewrite FG. destruct (find_task n w) as [t|] eqn:F; cbn [option_map].
  - cbn [set_status]. unfold get, modify, ret. cbn [fst].
    match goal with |- R w (on_task n (with_state ?st) _) => set (st' := st) end.
    apply (b_trans R C) with (bump w); [apply (b_bump R C)|]. refine (b_write R C n t st' [Rec n ARun (w_clock w) (Some rid)] (bump w) _ F _ _); [|reflexivity].
    apply written; try reflexivity.
    + intros b. unfold st'. cbn. unfold set_last. now destruct (action_eqb ARun b).
    + cbn. now apply map_twice.
    + eexists [_]. reflexivity.
  - cbn [fst]. eapply (b_trans R C); [|apply (b_bump R C)].
    assert (T : map (fun t => if t_name t =? n then g t else t) (w_tasks w) = w_tasks w).
    { unfold find_task in F. clear -F. induction (w_tasks w) as [|u l IH]; [reflexivity|].
      cbn [map find] in *. destruct (t_name u =? n); [discriminate|]. f_equal. now apply IH. }
    unfold on_task. rewrite T. apply (b_ev R C (EvState (w_tasks w)) w). intros ts E. now injection E.
Qed.
Lemma go_launch fuel n x uid t0 rid : steps R (launch orc fuel x n uid t0 rid).
Proof using C HW HE.
  destruct x; cbn [launch].
  - unfold run_setup. go C; [apply (b_orphans R C)|apply go_push|apply (go_log_action C _ HW)|apply (b_orphans R C)|exact HE|exact HE|apply (go_run_body C _ HW)].
  - go C; [apply go_push|apply (go_log_action C _ HW)].
  - go C. destruct a1 as [e|]; [go C; apply go_push|]. apply (go_bind C); [apply go_push|intros _]. intros w.
    match goal with |- R w (fst ((modify ?f ;; r <- attempt ?m ;; @?k r) w)) =>
      replace ((modify f ;; r <- attempt m ;; k r) w) with ((r <- (modify f ;; attempt m) ;; k r) w) end.
    2:{ unfold mbind, modify. destruct (attempt _ _) as [? []]; reflexivity. }
    pose proof (thread_noted n rid w) as T. unfold mbind at 1.
    destruct ((modify _ ;; attempt _) w) as [w1 [r|e|]]; cbn [fst] in T |- *; try exact T. apply (b_trans R C _ _ _ T).
    match goal with |- R w1 (fst (?m w1)) => enough (steps R m) as H by apply H end.
    destruct r; go C; [apply (b_exc R C)|apply (go_log_action C _ HW)|apply (b_over R C)].
  - go C. destruct a1 as [e|]; go C; [apply go_push|apply go_push|destruct a1; go C; apply (go_log_action C _ HW)|apply (go_lock C _ HW HE)].
Qed.
Lemma go_start_failed n x rid e : steps R (start_failed orc x n rid e).
Proof using C HW.
  assert (H : steps R (rid <- match rid with Some i => ret i | None => get_run_id orc end ;;
      b <- status_is_run n ;;
      (if b then ret tt else log_action orc false n ARun (Some rid) 0) ;;
      log_action orc false n AFail (Some rid) 0 ;;
      @raise unit TaskSetupError)).
  { unfold status_is_run. go C; [destruct rid; go C; apply (go_get_run_id C)| |apply (go_log_action C _ HW)].
    destruct a0; go C; apply (go_log_action C _ HW). }
  destruct e; try exact H; unfold start_failed, status_is_run; go C.
  destruct (_ && _); go C; apply (go_log_action C _ HW).
Qed.
Lemma go_direct n : steps R (get_direct_params n).
Proof using C.
  unfold get_direct_params. go C. destruct (t_batches a); go C; [apply (b_ev R C); discriminate|apply (b_batches R C n (fun _ => l))|apply (b_ev R C); discriminate].
Qed.
Lemma go_start_async fuel n : steps R (start_async orc cf fuel n).
Proof using C HW HE.
  unfold start_async. go C; [apply (b_uid R C)|apply (b_ev R C); discriminate|apply go_direct|apply (go_get_run_id C)| |apply (b_main R C)].
  destruct a4 as [rid|e]; [|apply go_start_failed]. apply (go_bind C); [apply go_attempt, go_launch|]. intros [u|e]; [go C|apply go_start_failed].
Qed.
Lemma go_run_task fuel n : steps R (run_task orc cf fuel n).
Proof using C HW HE.
  unfold run_task. go C; [apply go_start_async|]. destruct a as [?|[]]; go C; [destruct (cf_silence_prerun cf)|destruct (cf_silence_logging cf)]; go C.
Qed.
Lemma go_guarded fuel n : steps R (guarded orc cf fuel n).
Proof using C HW HE.
  unfold guarded. go C; [apply (go_is_task_runnable C _ _ HE)|exact HE|]. destruct a; go C. apply go_run_task.
Qed.
Lemma go_cycle_task fuel n : steps R (cycle_task orc cf fuel n).
Proof using C HW HE.
  unfold cycle_task. go C;
    [exact HE|apply (go_handle_logs C _ _ HW HE)|apply (go_clean C)|exact HE| |exact HE|apply (go_check_termination C _ _ HW HE)].
  destruct (_ || _); go C; [apply (b_ev R C); discriminate|]. destruct a4; [apply go_guarded|go C].
Qed.
Lemma go_run_special fuel n : steps R (run_special orc cf fuel n).
Proof using C HW HE.
  unfold run_special. apply (go_bind C); [go C|intros t].
  apply (go_bind C); [destruct (_ && _); go C; [apply (b_ev R C); discriminate|apply (b_batches R C n (fun t => t_batches t ++ [[]]))]|].
  intros _. apply (go_guarded fuel n).
Qed.
Lemma go_startup_task fuel n : steps R (startup_task orc cf fuel n).
Proof using C HW HE.
  unfold startup_task. go C; [exact HE|apply (go_set_cached C _ HW)| |].
  - destruct a0 as [?|[]]; go C. destruct (cf_silence_logging cf); go C.
  - destruct (tc_startup _); go C. apply go_run_special.
Qed.
Lemma go_run_cycle fuel : steps R (run_cycle orc cf fuel).
Proof using C HW HE.
  unfold run_cycle. go C;
    [apply (go_tasks C)|apply (b_ev R C); discriminate|apply (go_hook C)|apply (go_for_each C), go_cycle_task
    |apply (go_handle_logs C _ _ HW HE)|apply (go_check_thread_errors C)|apply (go_hook C)|apply (b_cycles R C)].
Qed.
Lemma go_startup fuel : steps R (startup orc cf fuel).
Proof using C HW HE.
  unfold startup. go C;
    [apply (b_ev R C); discriminate|apply (go_hook C)|apply (b_cycles R C)|apply (go_tasks C)
    |apply (go_for_each C), go_startup_task|apply (go_hook C)|apply (b_ev R C); discriminate].
Qed.
Lemma go_main_loop fuel : steps R (main_loop orc cf fuel).
Proof using C HW HE.
  induction fuel as [|fuel IH]; cbn [main_loop]; go C; [apply (go_check_shut_cond C)|].
  destruct a; go C; [exact HE|]. destruct a0; go C. destruct a0; go C; [apply go_run_cycle|exact IH].
Qed.
Lemma go_shutdown_task fuel n : steps R (shutdown_task orc cf fuel n).
Proof using C HW HE. unfold shutdown_task. go C. destruct (tc_shutdown _); go C. apply go_run_special. Qed.
Lemma go_run_shutdown_tasks fuel : steps R (run_shutdown_tasks orc cf fuel).
Proof using C HW HE. unfold run_shutdown_tasks. go C; [apply (go_tasks C)|]. apply (go_for_each C), go_shutdown_task. Qed.
Lemma go_shut_down fuel e : steps R (shut_down orc cf fuel e).
Proof using C HW HE.
  unfold shut_down. go C;
    [apply (b_ev R C); discriminate|apply (go_hook C)|apply go_run_shutdown_tasks|apply (go_shut_down_tasks C _ _ HW HE)
    |apply (go_wait_task_alive C _ HE)|apply (go_handle_logs C _ _ HW HE)|apply (go_check_thread_errors C)|apply (go_hook C)].
Qed.
End Start.
