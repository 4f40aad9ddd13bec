(** Log records that cannot be written (C47). *)
From Coq Require Import Bool Arith Lia ZifyBool Permutation.
From Verif Require Import Model.Base Model.History Model.World Model.Run Model.Scheduler.
From Verif Require Import Spec.SchedulerSpec Proofs.WorldProofs Proofs.LimitProofs Proofs.EventProofs.
From Verif Require Import Proofs.PriorityProofs Proofs.RequestProofs Proofs.TerminationProofs.
Open Scope Z_scope.

(** * One record *)
Lemma find_with_state n m st w : find_task m (on_task n (with_state st) w) =
  option_map (fun t => if t_name t =? n then with_state st t else t) (find_task m w).
Proof. now apply find_on_task. Qed.
Lemma find_with_term n m b w : find_task m (on_task n (with_term b) w) =
  option_map (fun t => if t_name t =? n then with_term b t else t) (find_task m w).
Proof. now apply find_on_task. Qed.
Lemma find_set_log l m w : find_task m (set_log l w) = find_task m w.
Proof. reflexivity. Qed.
Lemma find_bump m w : find_task m (bump w) = find_task m w.
Proof. reflexivity. Qed.
Lemma set_status_eq orc n a rid w t : find_task n w = Some t ->
  set_status_m orc n a rid w =
  let '(st, l, r) := set_status (t_state t) (w_log w) n a (w_clock w) (w_clock w) rid (o_write orc (w_tick w)) in
  (on_task n (with_state st) (set_log l (bump w)), match r with Ok tt => Returns tt | Err e => Raises e end).
Proof.
  intros F. unfold set_status_m, mbind. change (ask (o_write orc) w) with (bump w, Returns (o_write orc (w_tick w))). cbv iota.
  unfold get_task, get, modify, ret, raise. rewrite find_bump, F. cbn [bump w_log w_clock].
  destruct (set_status _ _ _ _ _ _ _ _) as [[st l] [[]|e]]; reflexivity.
Qed.
Lemma log_fails orc n a rid v w t : find_task n w = Some t -> o_write orc (w_tick w) = false ->
  exists w', log_action orc false n a rid v w = (w', Raises TaskLoggingError) /\ w_log w' = w_log w /\
    status_of n w' = Some (if action_eqb a ARun then ARun else AFail) /\
    forall m, m <> n -> status_of m w' = status_of m w.
Proof.
  intros F O. pose proof (find_name _ _ _ F) as FN. unfold log_action, mbind. rewrite (set_status_eq _ _ _ _ _ _ F), O. unfold set_status, status_of.
  destruct (action_eqb a ARun); (eexists; split; [reflexivity|]; split; [reflexivity|]; split;
    [rewrite find_with_state, find_set_log, find_bump, F; cbn [option_map]; now rewrite FN, Z.eqb_refl|]);
    intros m N; rewrite find_with_state, find_set_log, find_bump; destruct (find_task m w) as [x|] eqn:X; cbn [option_map]; [|reflexivity| |reflexivity];
    pose proof (find_name _ _ _ X) as XN; (destruct (Z.eqb_spec (t_name x) n); [congruence|reflexivity]).
Qed.
Lemma log_written orc n a rid v w t : find_task n w = Some t -> o_write orc (w_tick w) = true ->
  exists w', log_action orc false n a rid v w = (w', Returns tt) /\ w_log w' = w_log w ++ [Rec n a (w_clock w) rid] /\
    status_of n w' = Some a /\ forall m, m <> n -> status_of m w' = status_of m w.
Proof.
  intros F O. pose proof (find_name _ _ _ F) as FN. unfold log_action, mbind. rewrite (set_status_eq _ _ _ _ _ _ F), O. unfold set_status, status_of.
  assert (K : forall X, find_task n (on_task n (with_state X) (set_log (w_log w ++ [Rec n a (w_clock w) rid]) (bump w))) = Some (with_state X t)).
  { intros X. rewrite find_with_state, find_set_log, find_bump, F. cbn [option_map]. now rewrite FN, Z.eqb_refl. }
  assert (K' : forall X m, m <> n -> find_task m (on_task n (with_state X) (set_log (w_log w ++ [Rec n a (w_clock w) rid]) (bump w))) = find_task m w).
  { intros X m N. rewrite find_with_state, find_set_log, find_bump. destruct (find_task m w) as [x|] eqn:Fx; cbn [option_map]; [|reflexivity].
    pose proof (find_name _ _ _ Fx) as XN. destruct (Z.eqb_spec (t_name x) n); [congruence|reflexivity]. }
  destruct (action_eqb a ATerminate && negb false) eqn:T; cbn [ret modify];
    (eexists; split; [reflexivity|]; split; [reflexivity|]; split).
  - rewrite find_with_term, K. cbn [option_map]. now destruct (_ =? _).
  - intros m N. rewrite find_with_term, K' by exact N. destruct (find_task m w); cbn [option_map]; [now destruct (_ =? _)|reflexivity].
  - now rewrite K.
  - intros m N. now rewrite K'.
Qed.

(** * A silenced scheduler *)
Lemma grows_respects : respects all_moves grows.
Proof.
  constructor; [apply grows_calm|..]; intros; try (eapply ends_one; [reflexivity|auto]); try (apply ends_refl; reflexivity).
  eexists [_; _]. split; [reflexivity|auto].
Qed.
Lemma grows_start n : start_rel grows grows n (fun _ => True).
Proof.
  constructor; [constructor|..]; intros; auto; try (eapply ends_trans; eassumption); try (eapply ends_one; [reflexivity|auto]).
  eexists [_; _]. split; [reflexivity|auto].
Qed.
Definition some_end (w w' : world) : Prop := exists n u, got n u w w'.
Definition safe {A} (m : M A) : Prop :=
  steps grows m /\ forall w w', m w = (w', Raises TaskLoggingError) -> some_end w w'.
Lemma some_end_l a b c : some_end a b -> grows b c -> some_end a c.
Proof. intros (n & u & H) G. exists n, u. eapply got_l; eassumption. Qed.
Lemma some_end_r a b c : grows a b -> some_end b c -> some_end a c.
Proof. intros G (n & u & H). exists n, u. eapply got_r; eassumption. Qed.
Lemma safe_never {A} (m : M A) : steps grows m -> (forall w w', m w <> (w', Raises TaskLoggingError)) -> safe m.
Proof. intros S H. split; [exact S|]. intros w w' E. now apply H in E. Qed.
Lemma safe_ret {A} (a : A) : safe (ret a).
Proof. apply safe_never; [apply (steps_ret grows_calm)|discriminate]. Qed.
Lemma safe_raise {A} e : e <> TaskLoggingError -> safe (A := A) (raise e).
Proof. intros N. apply safe_never; [apply (steps_raise grows_calm)|]. intros w w' H. inversion H; congruence. Qed.
Lemma safe_fuel {A} : safe (A := A) (fun w => (w, OutOfFuel)).
Proof. apply safe_never; [apply (steps_fuel grows_calm)|discriminate]. Qed.
Lemma safe_get {A} (f : world -> A) : safe (get f).
Proof. apply safe_never; [apply (steps_get grows_calm)|discriminate]. Qed.
Lemma safe_get_task n : safe (get_task n).
Proof. apply safe_never; [apply (steps_get_task grows_calm)|]. intros w w'. unfold get_task. destruct (find_task n w); discriminate. Qed.
Lemma safe_ask {A} (f : nat -> A) : safe (ask f).
Proof. apply safe_never; [apply (steps_ask grows_calm)|discriminate]. Qed.
Lemma safe_modify f : (forall w, grows w (f w)) -> safe (modify f).
Proof. intros H. apply safe_never; [apply steps_modify, H|discriminate]. Qed.
Lemma safe_attempt {A} (m : M A) : steps grows m -> safe (attempt m).
Proof. intros H. apply safe_never; [apply steps_attempt, H|]. intros w w'. unfold attempt. destruct (m w) as [? []]; discriminate. Qed.
Lemma safe_bind {A B} (m : M A) (f : A -> M B) : safe m -> (forall a, safe (f a)) -> safe (mbind m f).
Proof.
  intros [S1 H1] H2. split; [apply (steps_bind grows_calm); [exact S1|intros a; apply H2]|]. intros w w' E.
  apply bind_inv in E as [(w1 & a & E1 & E)|[(e & E1 & Ee)|(E1 & Ee)]]; [| |discriminate Ee].
  - eapply some_end_r; [eapply steps_eq; [exact S1|exact E1]|]. now apply H2 with a.
  - inversion Ee; subst. now apply H1.
Qed.
Lemma safe_try {A B} (m : M A) (g : result A -> M B) : safe m -> (forall r, r <> Err TaskLoggingError -> safe (g r)) ->
  steps grows (g (Err TaskLoggingError)) -> safe (mbind (attempt m) g).
Proof.
  intros [S1 H1] H2 H3. split.
  - apply (steps_bind grows_calm); [apply steps_attempt, S1|]. intros [a|e]; [apply H2; discriminate|].
    destruct e; try (apply H2; discriminate). exact H3.
  - intros w w' E. unfold mbind, attempt in E. destruct (m w) as [w1 [a|e|]] eqn:E1; [| |discriminate E].
    + eapply some_end_r; [eapply steps_eq; [exact S1|exact E1]|]. apply (H2 (Ok a)); [discriminate|exact E].
    + assert (D : e = TaskLoggingError \/ e <> TaskLoggingError) by (destruct e; auto; right; discriminate). destruct D as [-> | N].
      * eapply some_end_l; [apply H1, E1|]. eapply steps_eq; [exact H3|exact E].
      * eapply some_end_r; [eapply steps_eq; [exact S1|exact E1]|]. apply (H2 (Err e)); [congruence|exact E].
Qed.
Lemma safe_finally {A} (m : M A) f : safe m -> safe f -> safe (finally m f).
Proof.
  intros Hm Hf. apply safe_try; [exact Hm| |].
  - intros r Hr. apply safe_bind; [exact Hf|]. intros _. destruct r as [a|e]; [apply safe_ret|apply safe_raise; congruence].
  - apply (steps_bind grows_calm); [apply Hf|]. intros _. apply (steps_raise grows_calm).
Qed.
Lemma safe_for_each f ns : (forall n, safe (f n)) -> safe (for_each f ns).
Proof. intros H. induction ns as [|n ns IH]; cbn [for_each]; [apply safe_ret|]. apply safe_bind; [apply H|intros _; exact IH]. Qed.
(** After a termination anything may happen. *)
Lemma safe_after {A} n u (f : M A) : steps grows f -> safe (modify (emit (EvTerminate n u)) ;; f).
Proof.
  intros S. split; [apply (steps_bind grows_calm); [apply steps_modify; intros; apply (c_ev_term _ _ grows_calm)|intros _; exact S]|].
  intros w w' E. unfold mbind, modify in E. exists n, u. apply got_l with (emit (EvTerminate n u) w).
  - exists [EvTerminate n u]. split; [reflexivity|now left].
  - eapply steps_eq; [exact S|exact E].
Qed.
Ltac sf :=
  repeat lazymatch goal with
    | |- safe (ret _) => apply safe_ret
    | |- safe (fun w => (w, OutOfFuel)) => apply safe_fuel
    | |- safe (get _) => apply safe_get
    | |- safe (get_task _) => apply safe_get_task
    | |- safe (ask _) => apply safe_ask
    | |- safe (mbind _ _) => apply safe_bind; [|intro]
    | |- safe (finally _ _) => apply safe_finally
    | |- safe (modify _) => apply safe_modify; intro
    end.

Section Silenced.
Context (orc : oracle) (cf : config).
Context (SL : cf_silence_logging cf = true) (HC : forall k n w, o_cond orc k n w <> Err TaskLoggingError)
  (HE : forall k, o_end orc k <> Err TaskLoggingError) (HS : forall k, o_shut orc k <> Err TaskLoggingError)
  (HK : forall k, o_hook orc k <> Some TaskLoggingError).
Let HT : forall k m, In m (o_env orc k) -> all_moves m := fun _ _ _ => I.
Let G := grows_calm.
Lemma safe_moves ms w : exists w', do_moves orc ms w = (w', Returns tt) \/ do_moves orc ms w = (w', OutOfFuel).
Proof using Type.
  revert w; induction ms as [|m ms IH]; intros w; cbn [do_moves]; [exists w; now left|]. unfold mbind, attempt.
  destruct (do_move orc m w) as [w1 [a|e|]]; auto. exists w1. now right.
Qed.
Lemma safe_env : safe (env orc).
Proof using Type.
  apply safe_never; [apply (steps_env G _ HT)|]. intros w w' E. unfold env, mbind, ask in E.
  match type of E with do_moves orc ?ms ?x = _ => destruct (safe_moves ms x) as (w1 & [K|K]); rewrite K in E; discriminate E end.
Qed.
Lemma safe_ask_bind {A B} (f : nat -> A) (g : A -> M B) : (forall k, safe (g (f k))) -> (forall a, steps grows (g a)) -> safe (mbind (ask f) g).
Proof using Type.
  intros H S. split; [st G; apply S|]. intros w w' E. unfold mbind, ask in E. eapply some_end_r; [|eapply H, E]. apply (c_bump _ _ G).
Qed.
(** [is_runnable] raises what the condition raises *)
Lemma safe_is_runnable n : safe (is_runnable orc n).
Proof using HC.
  unfold is_runnable. sf. destruct (t_batches a); sf. destruct (t_disabled a); sf. destruct (tc_always_false _); [sf|].
  apply safe_bind; [sf|intros a0]. apply safe_ask_bind; [|intros []; st G]. intros k. pose proof (HC k n a0) as N. destruct (o_cond orc k n a0); [apply safe_ret|apply safe_raise; congruence].
Qed.
Lemma safe_check_cond n : safe (check_task_cond orc cf n).
Proof using HC.
  unfold check_task_cond. apply safe_try; [apply safe_is_runnable| |].
  - intros [b|e] N; [apply safe_ret|]. destruct (_ || _); [apply safe_raise; congruence|apply safe_ret].
  - destruct (_ || _); st G.
Qed.
Lemma safe_runnable n : safe (is_task_runnable orc cf n).
Proof using HC.
  unfold is_task_runnable, has_free_processors. sf; [destruct (exec_eqb _ _); sf|]. destruct (negb _); sf; [apply safe_env|].
  destruct (_ && _ && _); sf; [apply safe_env|apply safe_check_cond].
Qed.
Lemma start_grows fuel n : steps grows (start_async orc cf fuel n).
Proof using Type. intros w. now apply (start_async_at G (grows_start n) orc cf HT). Qed.
Lemma safe_run_task fuel n : safe (run_task orc cf fuel n).
Proof using SL.
  unfold run_task. rewrite SL. apply safe_bind; [apply safe_attempt, start_grows|].
  intros [a|e]; [apply safe_ret|]. destruct e; try (apply safe_raise; discriminate); try apply safe_ret.
  destruct (cf_silence_prerun cf); [apply safe_ret|apply safe_raise; discriminate].
Qed.
Lemma safe_return n v : safe (handle_return n v).
Proof using Type. apply safe_never; [apply (steps_return G)|]. intros w w' E. discriminate E. Qed.
Lemma safe_logs fuel : safe (handle_logs orc cf fuel).
Proof using SL.
  induction fuel as [|fuel IH]; cbn [handle_logs]; sf; [apply safe_env|]. destruct (w_queue a0) as [|q rest]; sf.
  - apply (c_queue _ _ G).
  - destruct (q_return q); sf. destruct (action_eqb _ _); [|sf]. apply safe_return.
  - apply safe_attempt, (steps_log_record G).
  - destruct a4 as [u|e]; sf. rewrite SL. cbn [negb orb]. destruct (is_exception e) eqn:X; [apply safe_ret|].
    apply safe_raise. intros ->. discriminate X.
  - exact IH.
Qed.
Lemma safe_terminate_run n r : safe (terminate_run orc n r).
Proof using Type.
  apply safe_after. st G; [apply (steps_terminate_run_obj G _ HT)|].
  destruct a as [u|[]]; st G; try apply (steps_log_action G). destruct (exec_eqb _ _); st G. apply (steps_log_action G).
Qed.
Lemma safe_each n rs : safe (terminate_each orc n rs).
Proof using Type. induction rs as [|r rs IH]; cbn [terminate_each]; sf; [apply safe_terminate_run|apply safe_env|exact IH]. Qed.
Lemma safe_all n : safe (terminate_all_runs orc cf n).
Proof using Type.
  unfold terminate_all_runs, clean_run_stack. sf; [apply safe_each|apply (c_clean _ _ G)|apply (c_term _ _ G)].
Qed.
Lemma safe_late n now d rs : safe (terminate_late orc n now d rs).
Proof using Type.
  induction rs as [|r rs IH]; cbn [terminate_late]; sf; [|exact IH]. destruct (_ && _); sf; [apply safe_terminate_run|apply safe_env].
Qed.
Lemma safe_check n : safe (check_termination orc cf n).
Proof using HE.
  unfold check_termination. apply safe_ask_bind.
  - intros k. apply safe_bind.
    + pose proof (HE k) as N. destruct (o_end orc k) as [b|e]; [apply safe_ret|]. destruct (_ || _); [apply safe_raise; congruence|apply safe_ret].
    + intros b. sf. destruct (t_term a); [apply safe_all|]. destruct b; [apply safe_all|]. sf. destruct (tc_permanent _); [apply safe_ret|apply safe_late].
  - intros r. st G; [destruct r; st G; destruct (_ || _); st G|].
    destruct (t_term a0); [apply (steps_terminate_all G _ _ HT)|]. destruct a; [apply (steps_terminate_all G _ _ HT)|].
    st G. destruct (tc_permanent _); st G. apply (steps_terminate_late G _ HT).
Qed.
Lemma safe_hook : safe (hook orc).
Proof using HK.
  unfold hook. apply safe_ask_bind; [|intros a; st G]. intros k. pose proof (HK k) as N.
  destruct (o_hook orc k) as [e|]; cbn [raise_if]; [apply safe_raise; congruence|apply safe_ret].
Qed.
Lemma safe_thread_errors : safe (check_thread_errors cf).
Proof using SL. unfold check_thread_errors. rewrite SL. apply safe_ret. Qed.
Lemma safe_cycle_task fuel n : safe (cycle_task orc cf fuel n).
Proof using SL HC HE.
  unfold cycle_task, clean_run_stack. sf; try apply safe_env; [apply safe_logs|apply (c_clean _ _ G)| |apply safe_check].
  destruct (_ || _); sf; [apply (rs_consider _ _ grows_respects)|]. destruct a4; sf; [apply safe_runnable|apply safe_env|].
  destruct a4; [apply safe_run_task|apply safe_ret].
Qed.
Lemma safe_run_cycle fuel : safe (run_cycle orc cf fuel).
Proof using SL HC HE HK.
  unfold run_cycle, tasks. sf; [apply (rs_cycle _ _ grows_respects)|apply safe_hook|apply safe_for_each; intros; apply safe_cycle_task
    |apply safe_logs|apply safe_thread_errors|apply safe_hook|apply (rs_cycles _ _ grows_respects)].
Qed.
Lemma guarded_grows fuel n : steps grows (guarded orc cf fuel n).
Proof using Type. apply (steps_guarded G n (grows_start n) orc cf HT). Qed.
Lemma safe_guarded fuel n : safe (guarded orc cf fuel n).
Proof using SL HC. unfold guarded. sf; [apply safe_runnable|apply safe_env|]. destruct a; [apply safe_run_task|apply safe_ret]. Qed.
Lemma safe_special fuel n : safe (run_special orc cf fuel n).
Proof using SL HC.
  split; [apply (steps_run_special grows_respects _ _ HT guarded_grows)|]. intros w w' E. unfold run_special in E. unfold mbind at 1, get_task in E.
  destruct (find_task n w) as [t|] eqn:F; [|discriminate E].
  destruct (tc_always_false (t_cfg t)) eqn:E1; cbn [andb] in E; [|now apply (safe_guarded fuel n)].
  destruct (t_disabled t) eqn:E2; cbn [negb] in E; [now apply (safe_guarded fuel n)|].
  eapply some_end_r; [exact (rs_request _ _ grows_respects n t w F E2)|]. now apply (safe_guarded fuel n).
Qed.
Lemma safe_startup_task fuel n : safe (startup_task orc cf fuel n).
Proof using SL HC.
  unfold startup_task. sf; [apply safe_env|apply safe_attempt, (steps_set_cached G)| |].
  - destruct a0 as [u|e]; [apply safe_ret|]. rewrite SL. destruct e; first [apply safe_ret|apply safe_raise; discriminate].
  - destruct (tc_startup _); [apply safe_special|apply safe_ret].
Qed.
Lemma safe_startup fuel : safe (startup orc cf fuel).
Proof using SL HC HK.
  unfold startup, tasks. sf; [apply (rs_startup _ _ grows_respects)|apply safe_hook|apply (rs_cycles _ _ grows_respects)
    |apply safe_for_each; intros; apply safe_startup_task|apply safe_hook|apply (rs_started _ _ grows_respects)].
Qed.
Lemma safe_everything : safe (terminate_everything orc cf).
Proof using Type.
  unfold terminate_everything, tasks. sf. apply safe_for_each. intros n. unfold terminate_if_alive. sf.
  destruct (is_alive _); [apply safe_all|apply safe_ret].
Qed.
Lemma safe_wait fuel : safe (wait_for_finish orc cf fuel).
Proof using SL HE.
  induction fuel as [|fuel IH]; cbn [wait_for_finish]; sf. destruct (_ =? _); unfold tasks; sf; [apply safe_env|apply safe_logs| |exact IH].
  apply safe_for_each. intros n. unfold wait_turn. sf. destruct (tc_permanent _); [apply safe_all|apply safe_check].
Qed.
Lemma safe_down_tasks fuel : forall e, safe (shut_down_tasks orc cf fuel e).
Proof using SL HE.
  induction fuel as [|fuel IH]; intros e; cbn [shut_down_tasks]; sf. destruct (_ && _); [|apply safe_everything].
  apply safe_try; [apply safe_wait| |].
  - intros [u|e'] N; [apply safe_ret|]. destruct (is_exception e'); [|apply safe_raise; congruence].
    apply safe_bind; [apply IH|intros _; apply safe_raise; congruence].
  - cbn [is_exception]. st G. apply IH.
Qed.
Lemma safe_alive fuel : safe (wait_task_alive orc fuel).
Proof using Type. induction fuel as [|fuel IH]; cbn [wait_task_alive]; sf. destruct (_ <? _); sf; [apply safe_env|exact IH]. Qed.
Lemma safe_shut_down fuel e : safe (shut_down orc cf fuel e).
Proof using SL HC HE HK.
  unfold shut_down, run_shutdown_tasks, tasks. sf; [apply (rs_shutdown _ _ grows_respects)|apply safe_hook| |apply safe_down_tasks|apply safe_alive|apply safe_logs|apply safe_thread_errors|apply safe_hook].
  apply safe_for_each. intros n. unfold shutdown_task. sf. destruct (tc_shutdown _); [apply safe_special|apply safe_ret].
Qed.
Lemma safe_shut_cond : safe (check_shut_cond orc).
Proof using HS.
  unfold check_shut_cond. sf. destruct a; [|sf]. apply safe_ask_bind.
  - intros k. pose proof (HS k) as N. destruct (o_shut orc k); [apply safe_ret|apply safe_raise; congruence].
  - intros [b|e]; st G.
Qed.
Lemma safe_loop fuel : safe (main_loop orc cf fuel).
Proof using SL HC HE HS HK.
  induction fuel as [|fuel IH]; cbn [main_loop]; sf; [apply safe_shut_cond|]. destruct a; sf; [apply safe_env|].
  destruct a0; sf. destruct a0; [apply safe_raise; discriminate|]. sf; [apply safe_run_cycle|exact IH].
Qed.
Lemma safe_serve fuel : safe (serve orc cf fuel).
Proof using SL HC HE HS HK.
  unfold serve. apply safe_bind; [sf; apply (rs_flags _ _ grows_respects)|intros _]. apply safe_try.
  - sf; [apply safe_startup|apply safe_loop].
  - intros r N. sf; [apply safe_shut_down|]. destruct r as [u|e]; [apply safe_ret|]. destruct e; first [apply safe_ret|apply safe_raise; congruence].
  - st G. apply (steps_shut_down grows_respects _ _ HT guarded_grows).
Qed.
Lemma silenced_log_failure fuel w w' evs : serve orc cf fuel w = (w', Raises TaskLoggingError) -> happened w w' evs ->
  exists n u, In (EvTerminate n u) evs.
Proof using SL HC HE HS HK.
  intros E H. apply safe_serve in E as (n & u & evs' & H' & I). exists n, u. now rewrite (happened_unique _ _ _ _ H H').
Qed.
End Silenced.

(** * Nothing of the settings changes *)
Definition cfgs (w w' : world) : Prop := map t_cfg (w_tasks w') = map t_cfg (w_tasks w).
Lemma cfgs_map g w : (forall t, t_cfg (g t) = t_cfg t) -> cfgs w (set_tasks (map g (w_tasks w)) w).
Proof. intros H. unfold cfgs. cbn. rewrite map_map. apply map_ext. exact H. Qed.
Lemma cfgs_on_task n g w : (forall t, t_cfg (g t) = t_cfg t) -> cfgs w (on_task n g w).
Proof. intros H. apply cfgs_map. intros t. destruct (_ =? _); auto. Qed.
Lemma cfgs_emit_task n g e w : (forall t, t_cfg (g t) = t_cfg t) -> cfgs w (on_task n g (emit e w)).
Proof. intros H. exact (cfgs_on_task n g w H). Qed.
Lemma cfgs_task_emit n g e w : (forall t, t_cfg (g t) = t_cfg t) -> cfgs w (emit e (on_task n g w)).
Proof. intros H. exact (cfgs_on_task n g w H). Qed.
Lemma cfgs_respects : respects all_moves cfgs.
Proof.
  constructor; [constructor; [constructor|]|..]; intros; try reflexivity; try (apply cfgs_on_task; reflexivity); try (apply cfgs_map; reflexivity);
    try (apply cfgs_emit_task; reflexivity).
  - unfold cfgs in *. congruence.
  - apply cfgs_on_task. intros t. unfold drop_exc. destruct (drop_first_exc (t_stack t)); reflexivity.
Qed.
Lemma cfgs_start n : start_rel cfgs cfgs n (fun _ => True).
Proof.
  constructor; [constructor|..]; intros; auto; try reflexivity; try (unfold cfgs in *; congruence); try (apply cfgs_on_task; reflexivity);
    apply cfgs_task_emit; reflexivity.
Qed.
Lemma cfgs_guarded orc cf fuel n : steps cfgs (guarded orc cf fuel n).
Proof. apply (steps_guarded (rs_calm _ _ cfgs_respects) n (cfgs_start n) orc cf (fun _ _ _ => I)). Qed.
Lemma cfgs_names w w' : cfgs w w' -> map t_name (w_tasks w') = map t_name (w_tasks w).
Proof. intros H. unfold t_name. rewrite <- !(map_map t_cfg tc_name). now rewrite H. Qed.
Lemma cfgs_distinct w w' : cfgs w w' -> distinct_names w -> distinct_names w'.
Proof. intros H U. unfold distinct_names. now rewrite (cfgs_names _ _ H). Qed.

(** * Failures in threads are reported at the end of the cycle *)
Lemma drop_none l : drop_first_exc l = None -> forall r, In r l -> rn_exc r = false.
Proof.
  induction l as [|x l IH]; intros H r Hr; [destruct Hr|]. cbn in H. destruct (rn_exc x) eqn:X; [discriminate H|].
  destruct (drop_first_exc l); [discriminate H|]. destruct Hr as [<- | Hr]; [exact X|now apply IH].
Qed.
Lemma exceptions_none ns : forall w w', for_each check_exceptions ns w = (w', Returns tt) ->
  w' = w /\ forall n t r, In n ns -> find_task n w = Some t -> In r (t_stack t) -> rn_exc r = false.
Proof.
  induction ns as [|n ns IH]; intros w w' H; cbn [for_each] in H; [injection H as <-; split; [reflexivity|intros n t r []]|].
  apply bind_returns in H as (w1 & [] & E1 & H). unfold check_exceptions in E1. apply bind_returns in E1 as (w2 & t & E2 & E1).
  apply get_task_returns in E2 as [-> F]. destruct (drop_first_exc (t_stack t)) as [l|] eqn:D; [discriminate E1|]. injection E1 as <-.
  destruct (IH _ _ H) as [-> K]. split; [reflexivity|]. intros m t' r [-> | Hm] F' Hr; [|now apply (K m t')].
  rewrite F in F'. injection F' as <-. now apply (drop_none _ D).
Qed.
Lemma cycle_clean orc cf fuel w w' : cf_silence_logging cf = false -> distinct_names w ->
  run_cycle orc cf fuel w = (w', Returns tt) -> forall r, In r (tracked w') -> rn_exc r = false.
Proof.
  intros SL U H r Hr. assert (U' : distinct_names w').
  { eapply cfgs_distinct; [|exact U]. refine (steps_eq _ _ _ _ _ H). apply (steps_run_cycle cfgs_respects _ _ (fun _ _ _ => I) (cfgs_guarded orc cf)). }
  unfold run_cycle in H.
  apply bind_returns in H as (w1 & ns & _ & H). apply bind_returns in H as (w2 & [] & _ & H). apply bind_returns in H as (w3 & [] & _ & H).
  apply bind_returns in H as (w4 & [] & _ & H). apply bind_returns in H as (w5 & [] & _ & H). apply bind_returns in H as (w6 & [] & E6 & H).
  apply bind_returns in H as (w7 & [] & E7 & H). injection H as <-.
  unfold check_thread_errors in E6. rewrite SL in E6. apply bind_returns in E6 as (w8 & ms & E8 & E6). unfold tasks, get in E8. injection E8 as <- <-.
  apply exceptions_none in E6 as [-> K]. unfold hook in E7. apply bind_returns in E7 as (w9 & o & E9 & E7). unfold ask in E9. injection E9 as <- <-.
  destruct (o_hook orc (w_tick w5)); [discriminate E7|]. injection E7 as <-.
  unfold tracked in Hr. apply in_concat in Hr as (l & Hl & Hr). apply in_map_iff in Hl as (t & <- & Ht).
  apply (K (t_name t) t r); [|now apply find_unique|exact Hr]. destruct (by_priority_spec (w_tasks w5)) as [P _].
  rewrite <- P. now apply in_map.
Qed.
