(** Requested tasks are started; holding the scheduler; startup tasks. *)
From Coq Require Import Bool Arith Lia ZifyBool Permutation.
From Verif Require Import Model.Base Model.History Model.World Model.Run Model.Scheduler.
From Verif Require Import Spec.SchedulerSpec Proofs.WorldProofs Proofs.LimitProofs Proofs.EventProofs.
From Verif Require Import Proofs.PriorityProofs Proofs.RequestProofs.
Open Scope Z_scope.

(** * The outside never stops the scheduler's code *)
Definition ends {A} (m : M A) : Prop := forall w, snd (m w) <> OutOfFuel.
Lemma ends_bind {A B} (m : M A) (f : A -> M B) : ends m -> (forall a, ends (f a)) -> ends (mbind m f).
Proof. intros Hm Hf w. specialize (Hm w). unfold mbind. destruct (m w) as [w1 [a|e|]]; cbn in *; [apply Hf|discriminate|congruence]. Qed.
Lemma ends_attempt {A} (m : M A) : ends m -> ends (attempt m).
Proof. intros Hm w. specialize (Hm w). unfold attempt. destruct (m w) as [w1 [a|e|]]; cbn in *; [discriminate|discriminate|congruence]. Qed.
Lemma ends_ret {A} (a : A) : ends (ret a). Proof. intro w; discriminate. Qed.
Lemma ends_raise {A} e : ends (@raise A e). Proof. intro w; discriminate. Qed.
Lemma ends_get {A} (f : world -> A) : ends (get f). Proof. intro w; discriminate. Qed.
Lemma ends_modify f : ends (modify f). Proof. intro w; discriminate. Qed.
Lemma ends_ask {A} (f : nat -> A) : ends (ask f). Proof. intro w; discriminate. Qed.
Lemma ends_get_task n : ends (get_task n). Proof. intro w; unfold get_task. destruct (find_task n w); discriminate. Qed.
Lemma ends_raise_if e : ends (raise_if e). Proof. destruct e; [apply ends_raise|apply ends_ret]. Qed.
Ltac en :=
  repeat lazymatch goal with
    | |- ends (ret _) => apply ends_ret
    | |- ends (raise _) => apply ends_raise
    | |- ends (get _) => apply ends_get
    | |- ends (get_task _) => apply ends_get_task
    | |- ends (raise_if _) => apply ends_raise_if
    | |- ends (ask _) => apply ends_ask
    | |- ends (mbind _ _) => apply ends_bind; [|intro]
    | |- ends (attempt _) => apply ends_attempt
    | |- ends (finally _ _) => unfold finally
    | |- ends (modify _) => apply ends_modify
    | |- ends (match ?x with _ => _ end) => destruct x
    | |- ends (let '(_, _) := ?x in _) => destruct x
    end.
Section Ends.
Context (orc : oracle).
Lemma ends_log_action c n a rid v : ends (log_action orc c n a rid v).
Proof.
  unfold log_action, set_status_m, set_status_child. en.
Qed.
Lemma ends_run_body c x n rid s : ends (run_body orc c x n rid s).
Proof. unfold run_body, handle_return. en; try apply ends_log_action. Qed.
Lemma ends_run_as_async c x n rid s : ends (run_as_async orc c x n rid s).
Proof. unfold run_as_async, run_setup. en. apply ends_run_body. Qed.
Lemma ends_move m : ends (do_move orc m).
Proof.
  destruct m; cbn [do_move]; unfold enter, run_setup, end_coroutine, thread_code, process_code; en;
    try apply ends_run_body; try apply ends_run_as_async; try apply ends_log_action.
Qed.
Lemma env_returns w : exists w', env orc w = (w', Returns tt).
Proof.
  unfold env, mbind, ask. generalize (o_env orc (w_tick w)) as ms. intros ms.
  match goal with |- exists w', _ ?x = _ => generalize x end. clear w.
  induction ms as [|m ms IH]; intros w; cbn [do_moves]; [now exists w|].
  unfold mbind. pose proof (ends_attempt _ (ends_move m) w) as E. unfold attempt in *.
  destruct (do_move orc m w) as [w1 [a|e|]]; cbn in *; [apply IH|apply IH|congruence].
Qed.
End Ends.

(** * A task keeps its requests until it is started *)
Definition keeps_task (t : task) (evs : list event) (t' : task) : Prop :=
  le_task run_alive 0 0 t t' /\ exists x, t_batches t' = t_batches t ++ x.
Lemma keeps_refl t : keeps_task t [] t.
Proof. split; [split; [reflexivity|lia]|]. exists []. now rewrite app_nil_r. Qed.
Lemma keeps_trans a b c e1 e2 : keeps_task a e1 b -> keeps_task b e2 c -> keeps_task a (e1 ++ e2) c.
Proof.
  intros [L1 (x1 & E1)] [L2 (x2 & E2)]. split; [apply (le_task_trans _ 0 0 0 _ _ _ L1 L2)|].
  exists (x1 ++ x2). now rewrite E2, E1, app_assoc.
Qed.
Lemma keeps_same e t t' : t_cfg t' = t_cfg t -> t_stack t' = t_stack t -> t_batches t' = t_batches t -> keeps_task t e t'.
Proof. intros E1 E2 E3. split; [now apply le_same|]. exists []. now rewrite E3, app_nil_r. Qed.
Lemma keeps_le e t t' : le_task run_alive 0 0 t t' -> t_batches t' = t_batches t -> keeps_task t e t'.
Proof. intros L E. split; [exact L|]. exists []. now rewrite E, app_nil_r. Qed.
Definition keeps (n : Z) := one n keeps_task.
Lemma keeps_state t ts : keeps_task t [EvState ts] t.
Proof. now apply keeps_same. Qed.
Lemma keeps_request n m p w : keeps n w (on_task m (fun t => with_batches (t_batches t ++ [p]) t) (emit (EvRequest m p) w)).
Proof.
  eapply (one_trans _ _ keeps_trans).
  - apply (one_emit n keeps_task (EvRequest m p)). intros t _. now apply keeps_same.
  - apply (one_on_task _ _ keeps_state); [reflexivity|]. intros _ t ts _. split; [now apply le_same|]. exists [p]. reflexivity.
Qed.
Lemma keeps_calm A n : calm A (keeps n).
Proof.
  destruct alive_ok as (Ho & Hb & He & Hs).
  constructor; [constructor|]; intros; try (apply (one_frame _ _ keeps_refl); reflexivity);
    try (apply (one_on_task _ _ keeps_state); [reflexivity|intros _ t ts _; now apply keeps_same]);
    try (apply one_on_run; intros t ts _; apply keeps_le; [|reflexivity]; apply le_map; intros r; destruct (Nat.eqb _ _); rewrite ?Hb, ?Ho, ?He, ?Hs; auto; discriminate).
  - eapply (one_trans _ _ keeps_trans); eassumption.
  - apply keeps_request.
  - apply (one_on_task _ _ keeps_state); [reflexivity|]. intros _ t ts _. apply keeps_le; [|reflexivity]. apply le_filter.
  - apply (one_on_task _ _ keeps_state).
    + intros t. unfold drop_exc. destruct (drop_first_exc (t_stack t)); reflexivity.
    + intros _ t ts _. unfold drop_exc. destruct (drop_first_exc (t_stack t)) as [l|] eqn:D; [|now apply keeps_same].
      apply keeps_le; [|reflexivity]. split; [reflexivity|]. unfold cnt. cbn. pose proof (drop_first_le run_alive _ _ D). lia.
  - apply (one_emit n keeps_task (EvTerminate n0 u)). intros t _. now apply keeps_same.
Qed.
Lemma keeps_start n m : m <> n -> start_rel (keeps n) (keeps n) m (fun _ => True).
Proof.
  intros N. constructor; [constructor; intros; auto|intros..]; try (apply (one_on_task _ _ keeps_state); [reflexivity|congruence]).
  - eapply (one_trans _ _ keeps_trans); eassumption.
  - eapply (one_trans _ _ keeps_trans); eassumption.
  - apply (one_trans _ _ keeps_trans) with (set_uid (S (w_uid w)) w); [apply (one_frame _ _ keeps_refl); reflexivity|].
    apply (one_emit n keeps_task (EvStart m (w_uid w))). intros t _. now apply keeps_same.
  - eapply (one_trans _ _ keeps_trans).
    + apply (one_on_task _ _ keeps_state m (with_batches rest)); [reflexivity|congruence].
    + apply (one_emit n keeps_task (EvTake m (Some p))). intros u _. now apply keeps_same.
  - apply (one_emit n keeps_task (EvTake m None)). intros t _. now apply keeps_same.
Qed.

(** ** The flag that holds the scheduler *)
Definition stays (b : bool) (w w' : world) : Prop := w_enabled w = b -> w_enabled w' = b.
Definition no_hold (b : bool) (m : move) : Prop := m <> MHold b.
Lemma stays_calm b : calm (no_hold b) (stays b).
Proof. constructor; [constructor|]; unfold stays; intros; auto. cbn. unfold no_hold in H. destruct b, b0; auto; congruence. Qed.
Lemma stays_start b m : start_rel (stays b) (stays b) m (fun _ => True).
Proof. constructor; [constructor|..]; unfold stays; intros; auto. Qed.

Section Requested.
Context (orc : oracle) (cf : config) (n : Z).
Let HT : forall k m, In m (o_env orc k) -> all_moves m := fun _ _ _ => I.
Let C := keeps_calm all_moves n.

(** May be started when its turn comes *)
Definition startable (w : world) (t : task) : Prop :=
  t_batches t <> [] /\
  (get_execution cf t = XProcess -> total_processes (w_tasks w) < cf_max_process cf) /\
  (get_execution cf t = XMain \/ allow_multilaunch cf t = true \/ n_alive t = 0%nat).
Definition fit (t : task) : Prop :=
  t_batches t <> [] /\ (get_execution cf t = XMain \/ allow_multilaunch cf t = true \/ n_alive t = 0%nat).
Lemma keeps_fit t evs t' : keeps_task t evs t' -> fit t -> fit t'.
Proof using Type.
  intros [[Ec L] (x & E)] [B F]. split.
  - rewrite E. destruct (t_batches t); [congruence|discriminate].
  - unfold get_execution, allow_multilaunch in *. rewrite Ec. destruct F as [F|[F|F]]; auto.
    right; right. unfold n_alive, cnt in *. destruct (t_name t =? 0)%Z; lia.
Qed.
Lemma keeps_exec t evs t' : keeps_task t evs t' -> get_execution cf t' = get_execution cf t.
Proof using Type. intros [[Ec _] _]. unfold get_execution. now rewrite Ec. Qed.
Lemma fit_alive t : fit t -> negb (exec_eqb (get_execution cf t) XMain) && negb (allow_multilaunch cf t) && is_alive t = false.
Proof using Type.
  intros [_ [->|[->|H]]]; [reflexivity|now rewrite andb_false_r|]. replace (is_alive t) with false; [apply andb_false_r|].
  unfold is_alive, n_alive in *. symmetry. induction (t_stack t) as [|r l IH]; [reflexivity|]. cbn in *. destruct (run_alive r); [discriminate|auto].
Qed.
Lemma runnable_yes w t : find_task n w = Some t -> startable w t ->
  exists w', is_task_runnable orc cf n w = (w', Returns true) /\ exists t', find_task n w' = Some t' /\ keeps_task t [] t'.
Proof using Type.
  intros F (B & P & Q). assert (Ft : fit t) by now split.
  unfold is_task_runnable. unfold mbind at 1, get_task. rewrite F.
  unfold mbind at 1. replace ((if exec_eqb (get_execution cf t) XProcess then has_free_processors cf else ret true) w) with (w, @Returns bool true).
  2:{ destruct (get_execution cf t); try reflexivity. cbn. unfold has_free_processors, mbind, get, ret.
      specialize (P eq_refl). now rewrite (proj2 (Z.ltb_lt _ _) P). }
  cbn [negb]. destruct (env_returns orc w) as (w1 & E1). pose proof (steps_env C orc HT w) as (ev1 & _ & K1). rewrite E1 in K1. cbn [fst] in K1.
  destruct (K1 t F) as (t1 & F1 & T1). unfold mbind at 1. rewrite E1. unfold mbind at 1, get_task. rewrite F1.
  rewrite <- (keeps_exec _ _ _ T1). rewrite (fit_alive _ (keeps_fit _ _ _ T1 Ft)).
  destruct (env_returns orc w1) as (w2 & E2). pose proof (steps_env C orc HT w1) as (ev2 & _ & K2). rewrite E2 in K2. cbn [fst] in K2.
  destruct (K2 t1 F1) as (t2 & F2 & T2). unfold mbind at 1. rewrite E2.
  pose proof (keeps_trans _ _ _ _ _ T1 T2) as T12. pose proof (keeps_fit _ _ _ T12 Ft) as [B2 _].
  exists w2. split; [|exists t2; split; [exact F2|exact T12]].
  unfold check_task_cond, is_runnable, mbind, attempt, get_task. rewrite F2. destruct (t_batches t2); [congruence|reflexivity].
Qed.
Lemma adds_in (P : list event -> Prop) w w' : adds P w w' -> exists evs, happened w w' evs /\ P (rev (filter mile evs)).
Proof using Type.
  intros H. destruct H as [H0 (new & T & X)]. exists (rev new).
  assert (Hp : happened w w' (rev new)) by (unfold happened; now rewrite rev_involutive). split; [exact Hp|].
  refine (happened_miles P w w' (rev new) _ Hp). split; [exact H0|]. eauto.
Qed.
(** The start is certain. *)
Lemma run_task_starts fuel w t : find_task n w = Some t ->
  exists u evs, happened w (fst (run_task orc cf fuel n w)) evs /\ In (EvStart n u) evs.
Proof using Type.
  intros F. unfold run_task. unfold mbind, attempt. rewrite start_async_eq, F.
  set (w1 := emit _ _). pose proof (start_rest_miles orc fuel n (get_execution cf t) (w_clock w) (w_uid w) w1) as R.
  apply adds_in in R as (evs & H & _).
  assert (G : forall w', happened w1 w' evs -> exists u e, happened w w' e /\ In (EvStart n u) e).
  { intros w' H'. exists (w_uid w), ([EvStart n (w_uid w)] ++ evs). split; [|now left].
    eapply happened_trans; [|exact H']. reflexivity. }
  destruct (start_rest orc fuel n _ _ _ w1) as [w2 [a|e|]]; cbn [fst] in *; try (now apply G).
  destruct e; try (now apply G); [destruct (cf_silence_prerun cf)|destruct (cf_silence_logging cf)]; now apply G.
Qed.
Lemma guarded_starts fuel w t : find_task n w = Some t -> startable w t ->
  exists u evs, happened w (fst (guarded orc cf fuel n w)) evs /\ In (EvStart n u) evs.
Proof using Type.
  intros F S. destruct (runnable_yes w t F S) as (w1 & E1 & t1 & F1 & _).
  pose proof (steps_is_task_runnable C orc cf HT n w) as (e1 & H1 & _). rewrite E1 in H1. cbn [fst] in H1.
  destruct (env_returns orc w1) as (w2 & E2). pose proof (steps_env C orc HT w1) as (e2 & H2 & K2). rewrite E2 in *. cbn [fst] in *.
  destruct (K2 t1 F1) as (t2 & F2 & _). destruct (run_task_starts fuel w2 t2 F2) as (u & e3 & H3 & I3).
  exists u, ((e1 ++ e2) ++ e3). unfold guarded, mbind. rewrite E1, E2. split.
  - eapply happened_trans; [eapply happened_trans; eassumption|exact H3].
  - apply in_or_app. now right.
Qed.

(** ** In a cycle *)
Context (HA : forall k m, In m (o_env orc k) -> no_hold true m).
Definition proc_free (t : task) : Prop := get_execution cf t <> XProcess.

Lemma stays_guarded b fuel m : (forall k m, In m (o_env orc k) -> no_hold b m) -> steps (stays b) (guarded orc cf fuel m).
Proof using Type. intros H. apply (steps_guarded (stays_calm b) m (stays_start b m) orc cf H). Qed.
Lemma stays_respects b : (forall k m, In m (o_env orc k) -> no_hold b m) ->
  (forall fuel m, steps (stays b) (cycle_task orc cf fuel m)) /\ (forall fuel, steps (stays b) (run_cycle orc cf fuel)).
Proof using Type.
  intros H. assert (Cb := stays_calm b).
  assert (T : forall fuel m, steps (stays b) (cycle_task orc cf fuel m)).
  { intros fuel m. unfold cycle_task. st Cb;
      [apply (steps_env Cb _ H)|apply (steps_handle_logs Cb _ _ H)|apply (steps_clean Cb)|apply (steps_env Cb _ H)| |apply (steps_env Cb _ H)|apply (steps_check_termination Cb _ _ H)].
    destruct (_ || _); st Cb; [unfold stays; auto|]. destruct a4; [apply (stays_guarded b fuel m H)|st Cb]. }
  split; [exact T|]. intros fuel. unfold run_cycle. st Cb;
    [apply (steps_tasks Cb)|unfold stays; auto|apply (steps_hook Cb)|apply (steps_for_each Cb), T
    |apply (steps_handle_logs Cb _ _ H)|apply (steps_check_thread_errors Cb)|apply (steps_hook Cb)|unfold stays; auto].
Qed.
Lemma keeps_cycle_task fuel m : m <> n -> steps (keeps n) (cycle_task orc cf fuel m).
Proof using Type.
  intros N. unfold cycle_task. st C;
    [apply (steps_env C _ HT)|apply (steps_handle_logs C _ _ HT)|apply (steps_clean C)|apply (steps_env C _ HT)| |apply (steps_env C _ HT)|apply (steps_check_termination C _ _ HT)].
  destruct (_ || _); st C.
  - apply (one_emit n keeps_task (EvConsider m (negb a4))). intros t _. now apply keeps_same.
  - destruct a4; [apply (steps_guarded C m (keeps_start n m N) orc cf HT fuel)|st C].
Qed.
Lemma cycle_task_starts fuel w w' t : find_task n w = Some t -> cyclic_task t -> fit t -> w_enabled w = true ->
  (get_execution cf t = XProcess -> total_processes (w_tasks w) < cf_max_process cf /\ distinct_names w) ->
  cycle_task orc cf fuel n w = (w', Returns tt) ->
  exists u evs, happened w w' evs /\ In (EvStart n u) evs.
Proof using HA.
  intros F [Cy1 Cy2] Ft En Pr H. unfold cycle_task in H.
  apply bind_returns in H as (w1 & [] & E1 & H). apply bind_returns in H as (w2 & [] & E2 & H).
  apply bind_returns in H as (w3 & [] & E3 & H). apply bind_returns in H as (w4 & [] & E4 & H).
  assert (K : exists evs, happened w w4 evs /\ exists t4, find_task n w4 = Some t4 /\ keeps_task t evs t4).
  { assert (K : keeps n w w4).
    { eapply (c_trans _ _ C); [eapply steps_eq; [|exact E1]; apply (steps_env C _ HT)|].
      eapply (c_trans _ _ C); [eapply steps_eq; [|exact E2]; apply (steps_handle_logs C _ _ HT)|].
      eapply (c_trans _ _ C); [eapply steps_eq; [|exact E3]; apply (steps_clean C)|].
      eapply steps_eq; [|exact E4]; apply (steps_env C _ HT). }
    destruct K as (evs & Hv & K). destruct (K t F) as (t4 & F4 & T4). eauto. }
  destruct K as (ev4 & H4 & t4 & F4 & T4).
  assert (S4 : w_enabled w4 = true).
  { assert (Cb := stays_calm true). assert (K : stays true w w4); [|now apply K].
    eapply (c_trans _ _ Cb); [eapply steps_eq; [|exact E1]; apply (steps_env Cb _ HA)|].
    eapply (c_trans _ _ Cb); [eapply steps_eq; [|exact E2]; apply (steps_handle_logs Cb _ _ HA)|].
    eapply (c_trans _ _ Cb); [eapply steps_eq; [|exact E3]; apply (steps_clean Cb)|].
    eapply steps_eq; [|exact E4]; apply (steps_env Cb _ HA). }
  assert (P4 : get_execution cf t = XProcess -> total_processes (w_tasks w4) < cf_max_process cf).
  { intros X. destruct (Pr X) as [L U]. assert (Cg := grow_calm live_process all_moves n process_ok).
    assert (K : grow live_process n 0 w w4).
    { eapply (c_trans _ _ Cg); [eapply steps_eq; [|exact E1]; apply (steps_env Cg _ HT)|].
      eapply (c_trans _ _ Cg); [eapply steps_eq; [|exact E2]; apply (steps_handle_logs Cg _ _ HT)|].
      eapply (c_trans _ _ Cg); [eapply steps_eq; [|exact E3]; apply (steps_clean Cg)|].
      eapply steps_eq; [|exact E4]; apply (steps_env Cg _ HT). }
    pose proof (total_le _ _ _ _ (proj1 K) U). lia. }
  apply bind_returns in H as (w5 & t5 & E5 & H). apply get_task_returns in E5 as [-> F5]. rewrite F4 in F5. injection F5 as <-.
  destruct T4 as [[Ec L] Bx] eqn:X. rewrite Ec, Cy1, Cy2 in H. cbn [orb] in H.
  apply bind_returns in H as (w6 & [] & E6 & H).
  apply bind_returns in E6 as (w7 & en & E7 & E6). unfold get in E7. injection E7 as <- <-. rewrite S4 in E6. cbn [negb] in E6.
  apply bind_returns in E6 as (w8 & [] & E8 & E6). unfold modify in E8. injection E8 as <-.
  change (guarded orc cf fuel n (emit (EvConsider n false) w4) = (w6, Returns tt)) in E6.
  assert (F' : find_task n (emit (EvConsider n false) w4) = Some t4) by exact F4.
  destruct (guarded_starts fuel _ _ F') as (u & ev & Hg & Ig).
  { destruct (keeps_fit _ _ _ T4 Ft) as [B Q]. split; [exact B|split; [|exact Q]]. rewrite (keeps_exec _ _ _ T4). exact P4. }
  rewrite E6 in Hg. cbn [fst] in Hg.
  assert (Hr : exists ev', happened w6 w' ev').
  { assert (K : keeps n w6 w').
    { refine (steps_eq (env orc ;; check_termination orc cf n) w6 w' _ _ H).
      st C; [apply (steps_env C _ HT)|apply (steps_check_termination C _ _ HT)]. }
    destruct K as (ev' & Hv & _). eauto. }
  destruct Hr as (ev' & Hr). exists u, (((ev4 ++ [EvConsider n false]) ++ ev) ++ ev'). split.
  - eapply happened_trans; [|exact Hr]. eapply happened_trans; [|exact Hg]. apply (happened_trans w w4); [exact H4|reflexivity].
  - apply in_or_app; left. apply in_or_app; right. exact Ig.
Qed.
Lemma for_each_starts fuel ns w w' t : In n ns -> NoDup ns -> find_task n w = Some t -> cyclic_task t -> fit t -> w_enabled w = true ->
  proc_free t -> for_each (cycle_task orc cf fuel) ns w = (w', Returns tt) ->
  exists u evs, happened w w' evs /\ In (EvStart n u) evs.
Proof using HA.
  revert w t; induction ns as [|m ns IH]; intros w t Hin U F Cy Ft En Np H; [destruct Hin|]. cbn [for_each] in H.
  apply bind_returns in H as (w1 & [] & E1 & H). inversion U as [|? ? Hm U']; subst.
  assert (Kr : forall v v', for_each (cycle_task orc cf fuel) ns v = (v', Returns tt) -> exists ev, happened v v' ev).
  { intros v v' Hv. assert (Cf := fifo_calm all_moves n).
    assert (K : fifo n v v'); [|destruct K as (ev & K & _); eauto].
    eapply steps_eq; [|exact Hv]. apply (steps_for_each Cf). intros k.
    apply (steps_cycle_task (fifo_respects all_moves n) orc cf HT).
    intros fl m'. apply (steps_guarded Cf m' (fifo_start n m') orc cf HT). }
  destruct (Z.eq_dec m n) as [->|N].
  - destruct (cycle_task_starts fuel w w1 t F Cy Ft En) as (u & e1 & H1 & I1); [intros X; now apply Np in X|exact E1|].
    destruct (Kr _ _ H) as (e2 & H2). exists u, (e1 ++ e2). split; [eapply happened_trans; eassumption|apply in_or_app; now left].
  - destruct Hin as [->|Hin]; [congruence|].
    pose proof (keeps_cycle_task fuel m N w) as (e1 & H1 & K1). rewrite E1 in *. cbn [fst] in *. destruct (K1 t F) as (t1 & F1 & T1).
    destruct (IH w1 t1 Hin U' F1) as (u & e2 & H2 & I2); auto.
    + destruct Cy as [Cy1 Cy2], T1 as [[Ec _] _]. split; now rewrite Ec.
    + eapply keeps_fit; eassumption.
    + pose proof (proj1 (stays_respects true HA) fuel m w) as S1. rewrite E1 in S1. now apply S1.
    + unfold proc_free. now rewrite (keeps_exec _ _ _ T1).
    + exists u, (e1 ++ e2). split; [eapply happened_trans; eassumption|apply in_or_app; now right].
Qed.
Lemma cycle_starts fuel w w' t evs : distinct_names w -> In t (w_tasks w) -> t_name t = n -> cyclic_task t -> fit t -> w_enabled w = true ->
  proc_free t -> run_cycle orc cf fuel w = (w', Returns tt) -> happened w w' evs ->
  exists u, In (EvStart n u) evs.
Proof using HA.
  intros U Hin En Cy Ft We Np H Hev. unfold run_cycle in H.
  apply bind_returns in H as (w0 & ns & E0 & H). unfold tasks, get in E0. injection E0 as <- <-.
  apply bind_returns in H as (w1 & [] & E1 & H). unfold modify in E1. injection E1 as <-.
  apply bind_returns in H as (w2 & [] & E2 & H). apply bind_returns in H as (w3 & [] & E3 & H).
  assert (Ck := keeps_calm all_moves n). pose proof (steps_hook Ck orc (emit EvCycle w)) as K2.
  pose proof (steps_hook (stays_calm true) orc (emit EvCycle w)) as S2. rewrite E2 in *. cbn [fst] in *.
  destruct K2 as (e2 & H2 & K2). destruct (K2 t (find_unique w n t U Hin En)) as (t2 & F2 & T2).
  destruct (by_priority_spec (w_tasks w)) as [P _].
  destruct (for_each_starts fuel (map t_name (by_priority (w_tasks w))) w2 w3 t2) as (u & e3 & H3 & I3).
  - rewrite <- P, <- En. now apply in_map.
  - rewrite <- P. exact U.
  - exact F2.
  - destruct Cy as [Cy1 Cy2], T2 as [[Ec _] _]. split; now rewrite Ec.
  - eapply keeps_fit; eassumption.
  - now apply S2.
  - unfold proc_free. now rewrite (keeps_exec _ _ _ T2).
  - exact E3.
  - assert (K4 : keeps n w3 w').
    { refine (steps_eq _ w3 w' _ _ H). st Ck; [apply (steps_handle_logs Ck _ _ HT)|apply (steps_check_thread_errors Ck)|apply (steps_hook Ck)|].
      apply (one_frame _ _ keeps_refl); reflexivity. }
    destruct K4 as (e4 & H4 & _). exists u.
    assert (Hall : happened w w' ((([EvCycle] ++ e2) ++ e3) ++ e4)).
    { eapply happened_trans; [|exact H4]. eapply happened_trans; [|exact H3]. apply (happened_trans w (emit EvCycle w)); [reflexivity|exact H2]. }
    rewrite (happened_unique _ _ _ _ Hev Hall). apply in_or_app; left. apply in_or_app; right. exact I3.
Qed.
End Requested.
