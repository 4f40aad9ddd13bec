(** Holding the scheduler, startup and shutdown tasks, what starts take. *)
From Coq Require Import Bool Arith Lia ZifyBool Permutation.
From Verif Require Import Model.Base Model.History Model.World Model.Run Model.Scheduler.
From Verif Require Import Spec.SchedulerSpec Proofs.WorldProofs Proofs.LimitProofs Proofs.EventProofs.
From Verif Require Import Proofs.PriorityProofs Proofs.RequestProofs Proofs.StartProofs.
Open Scope Z_scope.

(** * Milestones that are closed under concatenation *)
Section Closed.
Context (P : list event -> Prop) (P0 : P []) (Papp : forall x y, P x -> P y -> P (y ++ x)).
Lemma adds_calm A : calm A (adds P).
Proof using P0 Papp.
  eapply calm_sub; [apply (quiet_calm A)| | |].
  - intros w. eapply adds_weak; [|apply (c_refl _ _ (quiet_calm all_moves))]. now intros x ->.
  - intros a b c. apply adds_seq. auto.
  - intros a b H. eapply adds_weak; [|exact H]. now intros x ->.
Qed.
End Closed.

(** * On hold nothing is started *)
Definition is_start (e : event) : bool := match e with EvStart _ _ => true | _ => false end.
Definition held (w w' : world) : Prop :=
  w_enabled w = false -> w_enabled w' = false /\ exists evs, happened w w' evs /\ forall e, In e evs -> is_start e = false.
Lemma held_of w w' : stays false w w' -> adds (fun ms => forall e, In e ms -> is_start e = false) w w' -> held w w'.
Proof.
  intros S [_ (new & T & N)] H. split; [now apply S|]. exists (rev new). split; [unfold happened; now rewrite rev_involutive|].
  intros e He. apply in_rev in He. destruct e; try reflexivity. apply (N (EvStart name uid)). apply filter_In. auto.
Qed.
Lemma held_trans a b c : held a b -> held b c -> held a c.
Proof.
  intros H1 H2 H. destruct (H1 H) as [Hb (e1 & T1 & N1)]. destruct (H2 Hb) as [Hc (e2 & T2 & N2)]. split; [exact Hc|].
  exists (e1 ++ e2). split; [eapply happened_trans; eassumption|]. intros e He. apply in_app_or in He as [He|He]; auto.
Qed.
Lemma held_calm : calm (no_hold false) held.
Proof.
  assert (Ca : calm (no_hold false) (adds (fun ms => forall e, In e ms -> is_start e = false))).
  { apply adds_calm; [now intros e []|]. intros x y Hx Hy e He. apply in_app_or in He as [He|He]; auto. }
  destruct Ca as [[] ?]. destruct (stays_calm false) as [[] ?]. constructor; [constructor|]; intros; try (apply held_of; auto; fail). eapply held_trans; eassumption.
Qed.
Section Held.
Context (orc : oracle) (cf : config) (HA : forall k m, In m (o_env orc k) -> no_hold false m).
Let C := held_calm.
Lemma held_cycle_task fuel n : steps held (cycle_task orc cf fuel n).
Proof using HA.
  unfold cycle_task. st C;
    [apply (steps_env C _ HA)|apply (steps_handle_logs C _ _ HA)|apply (steps_clean C)|apply (steps_env C _ HA)| |apply (steps_env C _ HA)|apply (steps_check_termination C _ _ HA)].
  destruct (_ || _); [st C|]. apply steps_with. intros w Hw. rewrite Hw. cbn [negb]. unfold mbind, modify. cbn.
  split; [exact Hw|]. exists [EvConsider n true]. split; [reflexivity|]. intros e [<-|[]]. reflexivity.
Qed.
Lemma held_run_cycle fuel : steps held (run_cycle orc cf fuel).
Proof using HA.
  unfold run_cycle. st C;
    [apply (steps_tasks C)| |apply (steps_hook C)|apply (steps_for_each C), held_cycle_task
    |apply (steps_handle_logs C _ _ HA)|apply (steps_check_thread_errors C)|apply (steps_hook C)|].
  - intros Hw. split; [exact Hw|]. exists [EvCycle]. split; [reflexivity|]. intros e [<-|[]]. reflexivity.
  - intros Hw. split; [exact Hw|]. exists []. split; [reflexivity|]. intros e [].
Qed.
Lemma held_main_loop fuel : steps held (main_loop orc cf fuel).
Proof using HA.
  induction fuel as [|fuel IH]; cbn [main_loop]; st C; [apply (steps_check_shut_cond C)|].
  destruct a; st C; [apply (steps_env C _ HA)|]. destruct a0; st C. destruct a0; st C; [apply held_run_cycle|exact IH].
Qed.
Lemma hold_no_start fuel w evs : w_enabled w = false -> happened w (fst (main_loop orc cf fuel w)) evs ->
  forall n u, ~ In (EvStart n u) evs.
Proof using HA.
  intros Hw Hev n u Hin. destruct (held_main_loop fuel w Hw) as [_ (evs' & H' & N)].
  rewrite (happened_unique _ _ _ _ Hev H') in Hin. apply N in Hin. discriminate.
Qed.
End Held.

(** Not on hold: every cyclic task is considered, and not as held. *)
Section Release.
Context (orc : oracle) (cf : config) (HA : forall k m, In m (o_env orc k) -> no_hold true m).
Definition free (w w' : world) : Prop :=
  w_enabled w = true -> w_enabled w' = true /\ exists evs, happened w w' evs /\ forall n, ~ In (EvConsider n true) evs.
Lemma free_of w w' : stays true w w' -> adds (fun ms => forall n, ~ In (EvConsider n true) ms) w w' -> free w w'.
Proof using Type.
  intros S [_ (new & T & N)] H. split; [now apply S|]. exists (rev new). split; [unfold happened; now rewrite rev_involutive|].
  intros n Hn. apply in_rev in Hn. apply (N n). apply filter_In. auto.
Qed.
Lemma free_trans a b c : free a b -> free b c -> free a c.
Proof using Type.
  intros H1 H2 H. destruct (H1 H) as [Hb (e1 & T1 & N1)]. destruct (H2 Hb) as [Hc (e2 & T2 & N2)]. split; [exact Hc|].
  exists (e1 ++ e2). split; [eapply happened_trans; eassumption|]. intros n He. apply in_app_or in He as [He|He]; [now apply N1 in He|now apply N2 in He].
Qed.
Lemma free_calm : calm (no_hold true) free.
Proof using Type.
  assert (Ca : calm (no_hold true) (adds (fun ms => forall n, ~ In (EvConsider n true) ms))).
  { apply adds_calm; [now intros n []|]. intros x y Hx Hy n Hn. apply in_app_or in Hn as [Hn|Hn]; [now apply Hy in Hn|now apply Hx in Hn]. }
  destruct Ca as [[] ?]. destruct (stays_calm true) as [[] ?]. constructor; [constructor|]; intros; try (apply free_of; auto; fail). eapply free_trans; eassumption.
Qed.
Let C := free_calm.
Lemma free_cycle_task fuel n : steps free (cycle_task orc cf fuel n).
Proof using HA.
  unfold cycle_task. st C;
    [apply (steps_env C _ HA)|apply (steps_handle_logs C _ _ HA)|apply (steps_clean C)|apply (steps_env C _ HA)| |apply (steps_env C _ HA)|apply (steps_check_termination C _ _ HA)].
  destruct (_ || _); [st C|]. apply steps_with. intros w Hw. rewrite Hw. cbn [negb]. unfold mbind at 1, modify.
  revert Hw. apply (free_trans w (emit (EvConsider n false) w)).
  - intros Hw. split; [exact Hw|]. exists [EvConsider n false]. split; [reflexivity|]. intros m [X|[]]. discriminate.
  - change (free (emit (EvConsider n false) w) (fst (guarded orc cf fuel n (emit (EvConsider n false) w)))).
    apply free_of; [apply (stays_guarded orc cf true fuel n HA)|]. eapply adds_weak; [|apply guarded_miles].
    intros ms [->|[(u & ->)|(u & p & ->)]] m; cbn; intuition discriminate.
Qed.
Lemma free_run_cycle fuel : steps free (run_cycle orc cf fuel).
Proof using HA.
  unfold run_cycle. st C;
    [apply (steps_tasks C)| |apply (steps_hook C)|apply (steps_for_each C), free_cycle_task
    |apply (steps_handle_logs C _ _ HA)|apply (steps_check_thread_errors C)|apply (steps_hook C)|].
  - intros Hw. split; [exact Hw|]. exists [EvCycle]. split; [reflexivity|]. intros n [X|[]]. discriminate.
  - intros Hw. split; [exact Hw|]. exists []. split; [reflexivity|]. intros n [].
Qed.
Lemma release_considers fuel w evs t : distinct_names w -> w_enabled w = true ->
  snd (run_cycle orc cf fuel w) = Returns tt -> happened w (fst (run_cycle orc cf fuel w)) evs ->
  In t (w_tasks w) -> cyclic_task t -> considered (t_name t) evs = [EvConsider (t_name t) false].
Proof using HA.
  intros U Hw R Hev Hin Cy. destruct (cycle_considers orc cf fuel w evs U Hev t R Hin Cy) as (h & Hh).
  destruct h; [|exact Hh]. destruct (free_run_cycle fuel w Hw) as [_ (evs' & H' & N)].
  rewrite (happened_unique _ _ _ _ Hev H') in *. exfalso. apply (N (t_name t)).
  assert (X : In (EvConsider (t_name t) true) (considered (t_name t) evs')) by (rewrite Hh; now left).
  now apply filter_In in X as [X _].
Qed.
End Release.

(** * Cycles only start cyclic tasks *)
Section Cyclic.
Context (orc : oracle) (cf : config).
Let HT : forall k m, In m (o_env orc k) -> all_moves m := fun _ _ _ => I.
Definition cyclic_only (w w' : world) : Prop :=
  map t_cfg (w_tasks w') = map t_cfg (w_tasks w) /\
  exists evs, happened w w' evs /\ forall n u, In (EvStart n u) evs -> exists c, cfg_of n w = Some c /\ ordinary c = true.
Lemma cyclic_of w w' : quiet w w' -> cyclic_only w w'.
Proof using Type.
  intros [Ec (new & T & F)]. split; [exact Ec|]. exists (rev new). split; [unfold happened; now rewrite rev_involutive|].
  intros n u He. apply in_rev in He. assert (X : In (EvStart n u) (filter mile new)) by (apply filter_In; auto). rewrite F in X. destruct X.
Qed.
Lemma cyclic_trans a b c : cyclic_only a b -> cyclic_only b c -> cyclic_only a c.
Proof using Type.
  intros [E1 (e1 & T1 & N1)] [E2 (e2 & T2 & N2)]. split; [congruence|]. exists (e1 ++ e2). split; [eapply happened_trans; eassumption|].
  intros n u He. apply in_app_or in He as [He|He]; [eauto|]. destruct (N2 n u He) as (c0 & H0 & O0). exists c0.
  now rewrite (cfg_of_eq n a b E1) in H0.
Qed.
Lemma cyclic_calm : calm all_moves cyclic_only.
Proof using Type.
  eapply calm_sub; [apply (quiet_calm all_moves)| |exact cyclic_trans|exact cyclic_of].
  intros w. apply cyclic_of, (c_refl _ _ (quiet_calm all_moves)).
Qed.
Let C := cyclic_calm.
Lemma cyclic_cycle_task fuel n : steps cyclic_only (cycle_task orc cf fuel n).
Proof using Type.
  intros w. destruct (cycle_task_miles orc cf fuel n w) as [Ec (new & T & F)]. split; [exact Ec|].
  exists (rev new). split; [unfold happened; now rewrite rev_involutive|]. intros m u He. apply in_rev in He.
  assert (X : In (EvStart m u) (filter mile new)) by (apply filter_In; auto). revert X F. generalize (filter mile new) as ms. clear. intros ms X F.
  unfold turn_miles in F. destruct (cfg_of n w) as [c|] eqn:E; [|destruct F as [_ ->]; destruct X].
  destruct (ordinary c) eqn:O; [|subst ms; destruct X].
  destruct F as [[_ ->]|[->|(s & -> & S)]]; [destruct X|destruct X as [X|[]]; discriminate|].
  assert (m = n). { destruct S as [->|[(v & ->)|(v & p & ->)]]; cbn in X; intuition congruence. }
  subst m. eauto.
Qed.
Lemma cyclic_main_loop fuel : steps cyclic_only (main_loop orc cf fuel).
Proof using Type.
  assert (Ev : forall e, is_start e = false -> forall w, cyclic_only w (emit e w)).
  { intros e He w. split; [reflexivity|]. exists [e]. split; [reflexivity|]. intros n u [->|[]]. discriminate. }
  assert (Cy : forall fuel, steps cyclic_only (run_cycle orc cf fuel)).
  { intros f. unfold run_cycle. st C; [apply (steps_tasks C)|now apply Ev|apply (steps_hook C)|apply (steps_for_each C), cyclic_cycle_task
      |apply (steps_handle_logs C _ _ HT)|apply (steps_check_thread_errors C)|apply (steps_hook C)|].
    apply cyclic_of, quiet_frame; reflexivity. }
  induction fuel as [|fuel IH]; cbn [main_loop]; st C; [apply (steps_check_shut_cond C)|].
  destruct a; st C; [apply (steps_env C _ HT)|]. destruct a0; st C. destruct a0; st C; [apply Cy|exact IH].
Qed.
Lemma loop_starts_cyclic fuel w evs t u : distinct_names w -> happened w (fst (main_loop orc cf fuel w)) evs ->
  In t (w_tasks w) -> In (EvStart (t_name t) u) evs -> cyclic_task t.
Proof using Type.
  intros U Hev Hin Hs. destruct (cyclic_main_loop fuel w) as [_ (evs' & H' & N)]. rewrite (happened_unique _ _ _ _ Hev H') in Hs.
  destruct (N _ _ Hs) as (c & Hc & Oc). rewrite (cfg_in w t U Hin) in Hc. injection Hc as <-. now apply ordinary_cyclic.
Qed.
End Cyclic.

(** * Parameters are taken by the start just before *)
Definition taken (ms : list event) : Prop :=
  forall l1 n p l2, ms = l1 ++ EvTake n p :: l2 -> exists u l3, l2 = EvStart n u :: l3.
Lemma taken_app x y : taken x -> taken y -> taken (y ++ x).
Proof.
  intros Hx Hy l1 n p l2 E. apply app_eq_app in E as (l & [[E1 E2]|[E1 E2]]).
  - destruct l as [|e l]; cbn in E2.
    + destruct (Hx [] n p l2 (eq_sym E2)) as (u & l3 & ->). eauto.
    + injection E2 as <- ->. destruct (Hy l1 n p l E1) as (u & l3 & ->). cbn. eauto.
  - destruct (Hx l n p l2 E2) as (u & l3 & ->). eauto.
Qed.
Lemma taken_nil : taken [].
Proof. intros [|] ? ? ? E; discriminate. Qed.
Lemma taken_one e : (forall n p, e <> EvTake n p) -> taken [e].
Proof. intros H [|a l] n p l2 E; inversion E; subst; [now destruct (H n p)|now destruct l]. Qed.
Lemma taken_start n ms : start_miles n ms -> taken ms.
Proof.
  intros [->|[(u & ->)|(u & p & ->)]]; [apply taken_nil|now apply taken_one|].
  intros [|a [|b l]] m q l2 E; inversion E; subst; [eauto|now destruct l].
Qed.
Section Taken.
Context (orc : oracle) (cf : config).
Let HT : forall k m, In m (o_env orc k) -> all_moves m := fun _ _ _ => I.
Lemma taken_respects : respects all_moves (adds taken).
Proof using Type.
  constructor; [apply adds_calm; [apply taken_nil|apply taken_app]|intros..].
  - apply (adds_emit _ (EvConsider n b)). now apply taken_one.
  - apply (adds_emit _ EvCycle). now apply taken_one.
  - apply (adds_emit _ EvStartup). now apply taken_one.
  - apply (adds_emit _ EvStarted). now apply taken_one.
  - apply (adds_emit _ EvShutdown). now apply taken_one.
  - eapply adds_weak; [|apply quiet_frame; reflexivity]. intros x ->. apply taken_nil.
  - eapply adds_weak; [|apply quiet_frame; reflexivity]. intros x ->. apply taken_nil.
  - eapply adds_weak; [|exact (c_request _ _ (quiet_calm all_moves) n [] w I)]. intros x ->. apply taken_nil.
Qed.
Lemma taken_serve fuel : steps (adds taken) (serve orc cf fuel).
Proof using Type.
  apply (steps_serve taken_respects orc cf HT). intros f n w. eapply adds_weak; [|apply guarded_miles]. apply taken_start.
Qed.
(** What is between the start and the taking are only moves of the outside *)
Lemma take_after_start fuel w evs l1 n p l2 : happened w (fst (serve orc cf fuel w)) evs -> evs = l1 ++ EvTake n p :: l2 ->
  exists l0 u l, l1 = l0 ++ EvStart n u :: l /\ forall e, In e l -> mile e = false.
Proof using Type.
  intros Hev E. pose proof (happened_miles _ _ _ _ (taken_serve fuel w) Hev) as T. subst evs.
  rewrite filter_split in T by reflexivity. rewrite rev_app_distr in T. cbn [rev] in T. rewrite <- app_assoc in T.
  destruct (T _ n p _ eq_refl) as (u & l3 & E3). clear T Hev.
  assert (E4 : filter mile l1 = rev l3 ++ [EvStart n u]).
  { apply (f_equal (@rev event)) in E3. rewrite rev_involutive in E3. exact E3. }
  clear E3. revert E4. generalize (rev l3) as k. clear. induction l1 as [|a l1 IH]; intros k E; cbn in E; [destruct k; discriminate|].
  destruct (mile a) eqn:Ma.
  - destruct k as [|b k]; cbn in E.
    + injection E as -> E. exists [], u, l1. split; [reflexivity|]. intros e He. destruct (mile e) eqn:M; [|reflexivity].
      assert (X : In e (filter mile l1)) by (apply filter_In; auto). rewrite E in X. destruct X.
    + injection E as -> E. destruct (IH k E) as (l0 & v & l & -> & H). exists (b :: l0), v, l. auto.
  - destruct (IH k E) as (l0 & v & l & -> & H). exists (a :: l0), v, l. auto.
Qed.
End Taken.

(** * Startup tasks *)
Section Startup.
Context (orc : oracle) (cf : config) (n : Z).
Let HT : forall k m, In m (o_env orc k) -> all_moves m := fun _ _ _ => I.
(** not disabled, by nobody *)
Definition no_disable (m : move) : Prop := m <> MDisable n true.
Context (HA : forall k m, In m (o_env orc k) -> no_disable m).
Definition on_task_ (t : task) (evs : list event) (t' : task) : Prop := t_disabled t = false -> t_disabled t' = false.
Definition stays_on := one n on_task_.
Lemma on_refl t : on_task_ t [] t. Proof. intros H; exact H. Qed.
Lemma on_trans a b c e1 e2 : on_task_ a e1 b -> on_task_ b e2 c -> on_task_ a (e1 ++ e2) c.
Proof using Type. intros H1 H2 H. auto. Qed.
Lemma on_state t ts : on_task_ t [EvState ts] t. Proof. intros H; exact H. Qed.
Lemma on_calm : calm no_disable stays_on.
Proof using Type.
  constructor; [constructor|]; intros; try (apply (one_frame _ _ on_refl); reflexivity);
    try (apply (one_on_task _ _ on_state); [reflexivity|intros _ t ts _ Ht; exact Ht]);
    try (apply one_on_run; intros t ts _ Ht; exact Ht).
  - eapply (one_trans _ _ on_trans); eassumption.
  - eapply (one_trans _ _ on_trans).
    + apply (one_emit n on_task_ (EvRequest n0 p)). intros t _ Ht; exact Ht.
    + apply (one_on_task _ _ on_state); [reflexivity|intros _ t ts _ Ht; exact Ht].
  - apply (one_on_task _ _ on_state); [reflexivity|]. intros -> t ts _ Ht. destruct b; [now destruct H|reflexivity].
  - apply (one_on_task _ _ on_state).
    + intros t. unfold drop_exc. destruct (drop_first_exc (t_stack t)); reflexivity.
    + intros _ t ts _ Ht. unfold drop_exc. destruct (drop_first_exc (t_stack t)); exact Ht.
  - apply (one_emit n on_task_ (EvTerminate n0 u)). intros t _ Ht; exact Ht.
Qed.
Lemma on_start m : start_rel stays_on stays_on m (fun _ => True).
Proof using Type.
  constructor; [constructor; intros; auto|intros..]; try (apply (one_on_task _ _ on_state); [reflexivity|intros _ ? ts _ Ht; exact Ht]).
  - eapply (one_trans _ _ on_trans); eassumption.
  - eapply (one_trans _ _ on_trans); eassumption.
  - apply (one_trans _ _ on_trans) with (set_uid (S (w_uid w)) w); [apply (one_frame _ _ on_refl); reflexivity|].
    apply (one_emit n on_task_ (EvStart m (w_uid w))). intros t _ Ht; exact Ht.
  - eapply (one_trans _ _ on_trans).
    + apply (one_on_task _ _ on_state m (with_batches rest)); [reflexivity|intros _ ? ts _ Ht; exact Ht].
    + apply (one_emit n on_task_ (EvTake m (Some p))). intros u _ Ht; exact Ht.
  - apply (one_emit n on_task_ (EvTake m None)). intros t _ Ht; exact Ht.
Qed.
Lemma on_respects : respects no_disable stays_on.
Proof using Type.
  constructor; [apply on_calm|intros..]; try (apply (one_frame _ _ on_refl); reflexivity).
  - apply (one_emit n on_task_ (EvConsider n0 b)). intros t _ Ht; exact Ht.
  - apply (one_emit n on_task_ EvCycle). intros t _ Ht; exact Ht.
  - apply (one_emit n on_task_ EvStartup). intros t _ Ht; exact Ht.
  - apply (one_emit n on_task_ EvStarted). intros t _ Ht; exact Ht.
  - apply (one_emit n on_task_ EvShutdown). intros t _ Ht; exact Ht.
  - eapply (one_trans _ _ on_trans).
    + apply (one_emit n on_task_ (EvRequest n0 [])). intros u _ Ht; exact Ht.
    + apply (one_on_task _ _ on_state); [reflexivity|intros _ u ts _ Ht; exact Ht].
Qed.
Lemma on_guarded fuel m : steps stays_on (guarded orc cf fuel m).
Proof using HA. apply (steps_guarded on_calm m (on_start m) orc cf HA). Qed.
(** A startup or shutdown task of the given kind, ready to run *)
Definition special (t : task) : Prop :=
  tc_always_false (t_cfg t) = true /\ get_execution cf t <> XProcess /\
  (get_execution cf t = XMain \/ allow_multilaunch cf t = true \/ n_alive t = 0%nat).
Lemma special_keeps t evs t' : keeps_task t evs t' -> special t -> special t'.
Proof using Type.
  intros [[Ec L] _] (A & B & Q). unfold special, get_execution, allow_multilaunch in *. rewrite Ec. repeat split; auto.
  destruct Q as [Q|[Q|Q]]; auto. right; right. unfold n_alive, cnt in *. destruct (t_name t =? 0)%Z; lia.
Qed.
Lemma run_special_starts fuel w t : find_task n w = Some t -> special t -> t_disabled t = false ->
  exists u evs, happened w (fst (run_special orc cf fuel n w)) evs /\ In (EvStart n u) evs.
Proof using Type.
  intros F (A & B & Q) D. unfold run_special, mbind at 1, get_task. rewrite F, A, D. cbn [andb negb].
  set (w1 := on_task n (fun t => with_batches (t_batches t ++ [[]]) t) (emit (EvRequest n []) w)).
  change (exists u evs, happened w (fst (guarded orc cf fuel n w1)) evs /\ In (EvStart n u) evs).
  assert (F1 : find_task n w1 = Some (with_batches (t_batches t ++ [[]]) t)).
  { unfold w1. rewrite find_on_task by reflexivity. change (find_task n (emit (EvRequest n []) w)) with (find_task n w). rewrite F.
    cbn [option_map]. now rewrite (find_name _ _ _ F), Z.eqb_refl. }
  destruct (guarded_starts orc cf n fuel w1 _ F1) as (u & evs & H & I1).
  { split; [cbn; destruct (t_batches t); discriminate|]. split; [intros X; now apply B in X|exact Q]. }
  exists u, ([EvRequest n []; EvState (w_tasks w1)] ++ evs). split; [|apply in_or_app; now right].
  eapply happened_trans; [|exact H]. reflexivity.
Qed.
End Startup.

Section StartupTasks.
Context (orc : oracle) (cf : config) (n : Z) (HA : forall k m, In m (o_env orc k) -> no_disable n m).
Let HT : forall k m, In m (o_env orc k) -> all_moves m := fun _ _ _ => I.
Let K := keeps_calm all_moves n.
Let O := on_calm n.

Lemma keeps_special fuel m : m <> n -> steps (keeps n) (run_special orc cf fuel m).
Proof using Type.
  intros N. assert (G := steps_guarded K m (keeps_start n m N) orc cf HT).
  unfold run_special. apply (steps_bind K); [st K|intro t]. apply (steps_bind K); [|intros _; apply G].
  destruct (_ && _); [|st K]. apply steps_modify2. intros w. apply keeps_request.
Qed.
Lemma keeps_startup_task fuel m : m <> n -> steps (keeps n) (startup_task orc cf fuel m).
Proof using Type.
  intros N. unfold startup_task. st K; [apply (steps_env K _ HT)|apply (steps_set_cached K)| |].
  - destruct a0 as [?|[]]; st K. destruct (cf_silence_logging cf); st K.
  - destruct (tc_startup _); st K. now apply keeps_special.
Qed.
Lemma startup_task_starts fuel w w' t : find_task n w = Some t -> tc_startup (t_cfg t) = true /\ special cf t -> t_disabled t = false ->
  startup_task orc cf fuel n w = (w', Returns tt) -> exists u evs, happened w w' evs /\ In (EvStart n u) evs.
Proof using HA.
  intros F [Su S] D H. unfold startup_task in H. apply bind_returns in H as (w1 & [] & E1 & H). apply bind_returns in H as (w2 & r & E2 & H).
  apply bind_returns in H as (w3 & [] & E3 & H).
  assert (w3 = w2).
  { destruct r as [?|[]]; try discriminate; try (unfold ret in E3; now inversion E3). destruct (cf_silence_logging cf); [|discriminate].
    unfold ret in E3; now inversion E3. }
  subst w3. assert (K2 : keeps n w w2).
  { eapply (c_trans _ _ K); [eapply steps_eq; [|exact E1]; apply (steps_env K _ HT)|].
    eapply steps_eq; [|exact E2]. apply steps_attempt. apply (steps_set_cached K). }
  assert (O2 : stays_on n w w2).
  { eapply (c_trans _ _ O); [eapply steps_eq; [|exact E1]; apply (steps_env O _ HA)|].
    eapply steps_eq; [|exact E2]. apply steps_attempt. apply (steps_set_cached O). }
  destruct K2 as (e2 & H2 & K2). destruct O2 as (e2' & _ & O2). destruct (K2 t F) as (t2 & F2 & T2). destruct (O2 t F) as (t2' & F2' & D2).
  rewrite F2 in F2'. injection F2' as <-. apply bind_returns in H as (w4 & t4 & E4 & H). apply get_task_returns in E4 as [-> F4].
  rewrite F2 in F4. injection F4 as <-. assert (Ec : t_cfg t2 = t_cfg t) by (destruct T2 as [[Ec _] _]; exact Ec).
  rewrite Ec, Su in H. destruct (run_special_starts orc cf n fuel w2 t2 F2) as (u & e3 & H3 & I3).
  - eapply special_keeps; eassumption.
  - now apply D2.
  - rewrite H in H3. cbn [fst] in H3. exists u, (e2 ++ e3). split; [eapply happened_trans; eassumption|apply in_or_app; now right].
Qed.
Lemma for_each_startup fuel ns w w' t : In n ns -> NoDup ns -> find_task n w = Some t -> tc_startup (t_cfg t) = true -> special cf t -> t_disabled t = false ->
  for_each (startup_task orc cf fuel) ns w = (w', Returns tt) -> exists u evs, happened w w' evs /\ In (EvStart n u) evs.
Proof using HA.
  revert w t; induction ns as [|m ns IH]; intros w t Hin U F Su S D H; [destruct Hin|]. cbn [for_each] in H.
  apply bind_returns in H as (w1 & [] & E1 & H). inversion U as [|? ? Hm U']; subst.
  assert (So : forall m, steps (stays_on n) (startup_task orc cf fuel m)).
  { intros k. apply (steps_startup_task (on_respects n) orc cf HA). intros; now apply on_guarded. }
  destruct (Z.eq_dec m n) as [->|N].
  - destruct (startup_task_starts fuel w w1 t F (conj Su S) D E1) as (u & e1 & H1 & I1).
    assert (K2 : stays_on n w1 w').
    { refine (steps_eq _ _ _ _ _ H). apply (steps_for_each O). intros k. apply So. }
    destruct K2 as (e2 & H2 & _). exists u, (e1 ++ e2). split; [eapply happened_trans; eassumption|apply in_or_app; now left].
  - destruct Hin as [->|Hin]; [congruence|].
    pose proof (keeps_startup_task fuel m N w) as (e1 & H1 & K1). pose proof (So m w) as (e1' & _ & O1). rewrite E1 in *. cbn [fst] in *.
    destruct (K1 t F) as (t1 & F1 & T1). destruct (O1 t F) as (t1' & F1' & T1'). rewrite F1 in F1'. injection F1' as <-.
    destruct (IH w1 t1 Hin U' F1) as (u & e2 & H2 & I2); auto.
    + destruct T1 as [[Ec _] _]. now rewrite Ec.
    + eapply special_keeps; eassumption.
    + exists u, (e1 ++ e2). split; [eapply happened_trans; eassumption|apply in_or_app; now right].
Qed.
Lemma startup_starts fuel w w' t evs : distinct_names w -> In t (w_tasks w) -> t_name t = n -> tc_startup (t_cfg t) = true -> special cf t ->
  t_disabled t = false -> startup orc cf fuel w = (w', Returns tt) -> happened w w' evs -> exists u, In (EvStart n u) evs.
Proof using HA.
  intros U Hin En Su S D H Hev. unfold startup in H.
  apply bind_returns in H as (w1 & [] & E1 & H). unfold modify in E1. injection E1 as <-.
  apply bind_returns in H as (w2 & [] & E2 & H). apply bind_returns in H as (w3 & [] & E3 & H). unfold modify in E3. injection E3 as <-.
  apply bind_returns in H as (w4 & ns & E4 & H). unfold tasks, get in E4. injection E4 as <- <-.
  apply bind_returns in H as (w5 & [] & E5 & H).
  pose proof (steps_hook K orc (emit EvStartup w)) as (e2 & H2 & K2). pose proof (steps_hook O orc (emit EvStartup w)) as (e2' & _ & O2).
  pose proof (steps_hook (quiet_calm all_moves) orc (emit EvStartup w)) as [Q2 _]. rewrite E2 in *. cbn [fst] in *.
  assert (F : find_task n (emit EvStartup w) = Some t) by exact (find_unique w n t U Hin En).
  destruct (K2 t F) as (t2 & F2 & T2). destruct (O2 t F) as (t2' & F2' & D2). rewrite F2 in F2'. injection F2' as <-.
  assert (U2 : distinct_names w2).
  { unfold distinct_names. assert (X : map tc_name (map t_cfg (w_tasks w2)) = map tc_name (map t_cfg (w_tasks w))) by (f_equal; exact Q2).
    rewrite !map_map in X. unfold t_name. rewrite X. exact U. }
  destruct (by_priority_spec (w_tasks w2)) as [P _].
  destruct (for_each_startup fuel (map t_name (by_priority (w_tasks w2))) (set_cycles 0 w2) w5 t2) as (u & e5 & H5 & I5); auto.
  - change (w_tasks (set_cycles 0 w2)) with (w_tasks w2). rewrite <- P. rewrite <- (find_name _ _ _ F2). apply in_map. now apply find_some in F2 as [F2 _].
  - rewrite <- P. exact U2.
  - destruct T2 as [[Ec _] _]. now rewrite Ec.
  - eapply special_keeps; eassumption.
  - assert (K6 : keeps n w5 w').
    { refine (steps_eq _ _ _ _ _ H). st K; [apply (steps_hook K)|]. apply (one_emit n keeps_task EvStarted). intros t0 _. now apply keeps_same. }
    destruct K6 as (e6 & H6 & _).
    assert (Hall : happened w w' ((([EvStartup] ++ e2) ++ e5) ++ e6)).
    { eapply happened_trans; [|exact H6]. eapply happened_trans; [|exact H5].
      apply (happened_trans w (emit EvStartup w)); [reflexivity|exact H2]. }
    exists u. rewrite (happened_unique _ _ _ _ Hev Hall). apply in_or_app; left. apply in_or_app; right. exact I5.
Qed.
(** Shutdown tasks *)
Lemma keeps_shutdown_task fuel m : m <> n -> steps (keeps n) (shutdown_task orc cf fuel m).
Proof using Type. intros N. unfold shutdown_task. st K. destruct (tc_shutdown _); st K. now apply keeps_special. Qed.
Lemma for_each_shutdown fuel ns w w' t : In n ns -> NoDup ns -> find_task n w = Some t -> tc_shutdown (t_cfg t) = true -> special cf t -> t_disabled t = false ->
  for_each (shutdown_task orc cf fuel) ns w = (w', Returns tt) -> exists u evs, happened w w' evs /\ In (EvStart n u) evs.
Proof using HA.
  revert w t; induction ns as [|m ns IH]; intros w t Hin U F Su S D H; [destruct Hin|]. cbn [for_each] in H.
  apply bind_returns in H as (w1 & [] & E1 & H). inversion U as [|? ? Hm U']; subst.
  assert (So : forall m, steps (stays_on n) (shutdown_task orc cf fuel m)).
  { intros k. apply (steps_shutdown_task (on_respects n) orc cf HA). intros; now apply on_guarded. }
  destruct (Z.eq_dec m n) as [->|N].
  - unfold shutdown_task, mbind, get_task in E1. rewrite F, Su in E1.
    destruct (run_special_starts orc cf n fuel w t F S D) as (u & e1 & H1 & I1). rewrite E1 in H1. cbn [fst] in H1.
    assert (K2 : stays_on n w1 w').
    { refine (steps_eq _ _ _ _ _ H). apply (steps_for_each O). intros k. apply So. }
    destruct K2 as (e2 & H2 & _). exists u, (e1 ++ e2). split; [eapply happened_trans; eassumption|apply in_or_app; now left].
  - destruct Hin as [->|Hin]; [congruence|].
    pose proof (keeps_shutdown_task fuel m N w) as (e1 & H1 & K1). pose proof (So m w) as (e1' & _ & O1). rewrite E1 in *. cbn [fst] in *.
    destruct (K1 t F) as (t1 & F1 & T1). destruct (O1 t F) as (t1' & F1' & T1'). rewrite F1 in F1'. injection F1' as <-.
    destruct (IH w1 t1 Hin U' F1) as (u & e2 & H2 & I2); auto.
    + destruct T1 as [[Ec _] _]. now rewrite Ec.
    + eapply special_keeps; eassumption.
    + exists u, (e1 ++ e2). split; [eapply happened_trans; eassumption|apply in_or_app; now right].
Qed.
Lemma shutdown_starts fuel w w' t evs : distinct_names w -> In t (w_tasks w) -> t_name t = n -> tc_shutdown (t_cfg t) = true -> special cf t ->
  t_disabled t = false -> run_shutdown_tasks orc cf fuel w = (w', Returns tt) -> happened w w' evs -> exists u, In (EvStart n u) evs.
Proof using HA.
  intros U Hin En Su S D H Hev. unfold run_shutdown_tasks in H. apply bind_returns in H as (w1 & ns & E1 & H).
  unfold tasks, get in E1. injection E1 as <- <-. destruct (by_priority_spec (w_tasks w)) as [P _].
  destruct (for_each_shutdown fuel (map t_name (by_priority (w_tasks w))) w w' t) as (u & e & He & Ie); auto.
  - rewrite <- P, <- En. now apply in_map.
  - rewrite <- P. exact U.
  - exact (find_unique w n t U Hin En).
  - exists u. now rewrite (happened_unique _ _ _ _ Hev He).
Qed.
End StartupTasks.
