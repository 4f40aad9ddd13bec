(** How many runs are alive at once. *)
From Coq Require Import Bool Arith Lia ZifyBool.
From Verif Require Import Model.Base Model.History Model.World Model.Run Model.Scheduler.
From Verif Require Import Spec.SchedulerSpec Proofs.WorldProofs.
Open Scope Z_scope.

Lemma calm_sub A R (Q : world -> world -> Prop) : calm A R -> (forall w, Q w w) -> (forall a b c, Q a b -> Q b c -> Q a c) ->
  (forall a b, R a b -> Q a b) -> calm A Q.
Proof. intros [[] ?] Qr Qt H; constructor; [constructor|]; auto. Qed.

Definition all_moves (m : move) : Prop := True.

Section Grow.
Context (f : run -> bool).
Definition measure_ok : Prop :=
  (forall e r, f (with_phase (Over e) r) = false) /\ (forall r, f (begin_run r) = f r) /\
  (forall r, f (with_exc true r) = f r) /\ (forall r, f (with_stop true r) = f r).
Definition cnt (t : task) : nat := length (filter f (t_stack t)).
Definition le_task (n : Z) (k : nat) (t t' : task) : Prop :=
  t_cfg t' = t_cfg t /\ (cnt t' <= cnt t + (if (t_name t =? n)%Z then k else 0))%nat.
Definition le_tasks n k := Forall2 (le_task n k).
Definition grow (n : Z) (k : nat) (w w' : world) : Prop :=
  le_tasks n k (w_tasks w) (w_tasks w') /\
  exists new, w_trace w' = new ++ w_trace w /\ forall ts, In (EvState ts) new -> le_tasks n k (w_tasks w) ts.

Lemma le_tasks_refl n ts : le_tasks n 0 ts ts.
Proof. induction ts; constructor; auto. split; [reflexivity|lia]. Qed.
Lemma le_task_trans n a b t u v : le_task n a t u -> le_task n b u v -> le_task n (a + b) t v.
Proof.
  intros [E1 L1] [E2 L2]. split; [congruence|]. assert (N : t_name u = t_name t) by (unfold t_name; now rewrite E1).
  rewrite N in L2. destruct (t_name t =? n)%Z; lia.
Qed.
Lemma le_tasks_trans n a b x y z : le_tasks n a x y -> le_tasks n b y z -> le_tasks n (a + b) x z.
Proof.
  intros H; revert z; induction H; intros z Hz; inversion Hz; subst; constructor.
  - eapply le_task_trans; eassumption.
  - now apply IHForall2.
Qed.
Lemma le_tasks_weak n a b x y : (a <= b)%nat -> le_tasks n a x y -> le_tasks n b x y.
Proof.
  intros L H; induction H as [|t u x y [E K] _ IH]; constructor; auto. split; [exact E|].
  destruct (t_name t =? n)%Z; lia.
Qed.
Lemma grow_trans n a b w1 w2 w3 : grow n a w1 w2 -> grow n b w2 w3 -> grow n (a + b) w1 w3.
Proof.
  intros [H1 (n1 & E1 & S1)] [H2 (n2 & E2 & S2)]. split; [eapply le_tasks_trans; eassumption|].
  exists (n2 ++ n1). split; [rewrite E2, E1; apply app_assoc|].
  intros ts Hin. apply in_app_or in Hin as [Hin|Hin].
  - eapply le_tasks_trans; [exact H1|apply S2, Hin].
  - eapply le_tasks_weak; [|apply S1, Hin]. lia.
Qed.
(** a change that leaves tasks and their trace alone *)
Lemma grow_frame n w w' : w_tasks w' = w_tasks w -> (w_trace w' = w_trace w \/ exists e, w_trace w' = e :: w_trace w /\ forall ts, e <> EvState ts) ->
  grow n 0 w w'.
Proof.
  intros E H. split; [rewrite E; apply le_tasks_refl|]. destruct H as [H|(e & H & N)].
  - exists []. split; [exact H|]. intros ts [].
  - exists [e]. split; [exact H|]. intros ts [Hts|[]]. now destruct (N ts).
Qed.
Lemma grow_map n k g w : (forall t, le_task n k t (g t)) -> grow n k w (set_tasks (map g (w_tasks w)) w).
Proof.
  intros H. assert (L : le_tasks n k (w_tasks w) (map g (w_tasks w))).
  { induction (w_tasks w); constructor; auto. }
  split; [exact L|]. exists [EvState (map g (w_tasks w))]. split; [reflexivity|].
  intros ts [Hts|[]]. injection Hts as <-. exact L.
Qed.
Lemma grow_on_task n k m g w : (forall t, t_name t = m -> le_task n k t (g t)) -> grow n k w (on_task m g w).
Proof.
  intros H. apply grow_map. intros t. destruct (Z.eqb_spec (t_name t) m); [auto|].
  split; [reflexivity|destruct (t_name t =? n)%Z; lia].
Qed.
Lemma le_same n t t' : t_cfg t' = t_cfg t -> t_stack t' = t_stack t -> le_task n 0 t t'.
Proof. intros E S. split; [exact E|]. unfold cnt. rewrite S. lia. Qed.
Lemma filter_filter_le {A} (p q : A -> bool) l : (length (filter p (filter q l)) <= length (filter p l))%nat.
Proof. induction l as [|a l IH]; cbn; [lia|]. destruct (q a); cbn; destruct (p a); cbn; lia. Qed.
Lemma le_filter n q t : le_task n 0 t (with_stack (filter q (t_stack t)) t).
Proof. split; [reflexivity|]. unfold cnt. cbn. pose proof (filter_filter_le f q (t_stack t)). lia. Qed.
Lemma le_map n g t : (forall r, f (g r) = true -> f r = true) -> le_task n 0 t (with_stack (map g (t_stack t)) t).
Proof.
  intros H. split; [reflexivity|]. unfold cnt. cbn.
  enough (length (filter f (map g (t_stack t))) <= length (filter f (t_stack t)))%nat by lia.
  induction (t_stack t) as [|r l IH]; cbn; [lia|]. specialize (H r).
  destruct (f (g r)), (f r); cbn; lia.
Qed.
Lemma grow_on_run n u g w : (forall r, f (g r) = true -> f r = true) -> grow n 0 w (on_run u g w).
Proof.
  intros H. apply grow_map. intros t. apply le_map. intros r. destruct (Nat.eqb _ _); auto.
Qed.
Lemma drop_first_le l l' : drop_first_exc l = Some l' -> (length (filter f l') <= length (filter f l))%nat.
Proof.
  revert l'; induction l as [|r l IH]; intros l' H; cbn in H; [discriminate|].
  destruct (rn_exc r).
  - injection H as <-. cbn. destruct (f r); cbn; lia.
  - destruct (drop_first_exc l) as [l1|]; [|discriminate]. injection H as <-. specialize (IH l1 eq_refl).
    cbn. destruct (f r); cbn; lia.
Qed.
Lemma grow_calm A n : measure_ok -> calm A (grow n 0).
Proof.
  intros (Ho & Hb & He & Hs). constructor; [constructor|]; intros.
  - apply grow_frame; auto.
  - change 0%nat with (0 + 0)%nat. eapply grow_trans; eassumption.
  - apply grow_frame; auto.
  - apply grow_frame; auto.
  - apply grow_frame; auto.
  - apply grow_frame; auto.
  - apply grow_frame; auto.
  - apply grow_frame; auto.
  - apply grow_frame; auto.
  - apply grow_frame; auto.
  - apply grow_frame; auto.
  - apply grow_on_task. intros t _. apply le_same; reflexivity.
  - change 0%nat with (0 + 0)%nat. apply grow_trans with (emit (EvRequest n0 p) w).
    + apply grow_frame; [reflexivity|right]. eexists; split; [reflexivity|discriminate].
    + apply grow_on_task. intros t _. apply le_same; reflexivity.
  - apply grow_on_task. intros t _. apply le_same; reflexivity.
  - apply grow_on_task. intros t _. apply le_same; reflexivity.
  - apply grow_on_task. intros t _. apply le_same; reflexivity.
  - apply grow_on_run. intros r. now rewrite Hb.
  - apply grow_on_run. intros r. now rewrite Ho.
  - apply grow_on_run. intros r. now rewrite He.
  - apply grow_on_run. intros r. now rewrite Hs.
  - apply grow_on_task. intros t _. apply le_filter.
  - apply grow_on_task. intros t _. unfold drop_exc. destruct (drop_first_exc (t_stack t)) as [l|] eqn:D.
    + split; [reflexivity|]. unfold cnt. cbn. pose proof (drop_first_le _ _ D). lia.
    + apply le_same; reflexivity.
  - apply grow_frame; [reflexivity|right]. eexists; split; [reflexivity|discriminate].
Qed.
Lemma grow_push n : measure_ok -> push_rel (grow n 0) (grow n 1) n (fun _ => True).
Proof.
  intros M. constructor; intros.
  - destruct H as [H (new & E & S)]. split; [eapply le_tasks_weak; [|exact H]; lia|].
    exists new. split; [exact E|]. intros ts Hin. eapply le_tasks_weak; [|apply S, Hin]; lia.
  - change 1%nat with (0 + 1)%nat. eapply grow_trans; eassumption.
  - change 1%nat with (1 + 0)%nat. eapply grow_trans; eassumption.
  - apply grow_on_task. intros t _. apply le_filter.
  - apply grow_on_task. intros t E. split; [reflexivity|]. unfold cnt. cbn. rewrite E, Z.eqb_refl.
    rewrite filter_app, app_length. cbn. destruct (f r); cbn; lia.
Qed.
Lemma grow_start n : measure_ok -> start_rel (grow n 0) (grow n 1) n (fun _ => True).
Proof.
  intros M. constructor; [apply grow_push, M|intros..].
  - apply grow_frame; [reflexivity|right]. eexists; split; [reflexivity|discriminate].
  - change 0%nat with (0 + 0)%nat. apply grow_trans with (on_task n (with_batches rest) w).
    + apply grow_on_task. intros u _. apply le_same; reflexivity.
    + apply grow_frame; [reflexivity|right]. eexists; split; [reflexivity|discriminate].
  - apply grow_frame; [reflexivity|right]. eexists; split; [reflexivity|discriminate].
Qed.
(** Starting a run that is not counted *)
Lemma grow_start0 n : measure_ok -> start_rel (grow n 0) (grow n 0) n (fun r => f r = false).
Proof.
  intros M. destruct (grow_start n M) as [[] ? ? ?]. constructor; auto. constructor; auto.
  - change 0%nat with (0 + 0)%nat. eapply grow_trans; eassumption.
  - change 0%nat with (0 + 0)%nat. eapply grow_trans; eassumption.
  - intros r w F. apply grow_on_task. intros t E. split; [reflexivity|]. unfold cnt. cbn.
    rewrite filter_app, app_length. cbn. rewrite F. cbn. lia.
Qed.
Lemma find_le n k m ts ts' t' : le_tasks n k ts ts' -> find (fun t => t_name t =? m)%Z ts' = Some t' ->
  exists t, find (fun t => t_name t =? m)%Z ts = Some t /\ le_task n k t t'.
Proof.
  intros H; induction H as [|t u ts ts' [E L] _ IH]; cbn; [discriminate|].
  replace (t_name u) with (t_name t) by (unfold t_name; now rewrite E).
  destruct (t_name t =? m)%Z; [|exact IH]. intros X. injection X as <-. exists t. split; [reflexivity|]. now split.
Qed.
Lemma le_names n k ts ts' : le_tasks n k ts ts' -> map t_name ts' = map t_name ts.
Proof.
  intros H; induction H as [|t u ts ts' [E L] _ IH]; cbn; [reflexivity|]. f_equal; [|exact IH].
  unfold t_name. now rewrite E.
Qed.
End Grow.

Lemma bind_returns {A B} (m : M A) (f : A -> M B) w w' b : mbind m f w = (w', Returns b) ->
  exists w1 a, m w = (w1, Returns a) /\ f a w1 = (w', Returns b).
Proof. unfold mbind. destruct (m w) as [w1 [a|e|]]; try discriminate. intros H. exists w1, a. now split. Qed.
Lemma get_task_returns n w w' t : get_task n w = (w', Returns t) -> w' = w /\ find_task n w = Some t.
Proof. unfold get_task. destruct (find_task n w); intros H; inversion H; subst; auto. Qed.
Lemma steps_eq {R A} (m : M A) w w' o : steps R m -> m w = (w', o) -> R w w'.
Proof. intros H E. specialize (H w). now rewrite E in H. Qed.

Lemma alive_ok : measure_ok run_alive.
Proof.
  repeat split; intros; try reflexivity. unfold begin_run, is_pending, run_alive. destruct (rn_phase r) eqn:E; cbn; now rewrite ?E.
Qed.
Lemma process_ok : measure_ok live_process.
Proof.
  unfold live_process. repeat split; intros; cbn.
  - now rewrite andb_false_r.
  - unfold begin_run, is_pending, run_alive. destruct (rn_phase r) eqn:E; cbn; now rewrite ?E.
Qed.

Section Limit.
Context (orc : oracle) (cf : config).

Let HT : forall k m, In m (o_env orc k) -> all_moves m := fun _ _ _ => I.

(** An invariant of the tasks' states, seen in every observed state *)
Definition always_seen (L : list task -> Prop) (w : world) : Prop :=
  distinct_names w /\ forall ts, observed w ts -> L ts.

Lemma grow_seen f n k (L : list task -> Prop) w w' : (forall ts, le_tasks f n k (w_tasks w) ts -> L ts) ->
  grow f n k w w' -> always_seen L w -> always_seen L w'.
Proof.
  intros HL [H (new & E & S)] [U O]. split.
  - unfold distinct_names in *. now rewrite (le_names _ _ _ _ _ H).
  - intros ts [->|Hin]; [apply HL, H|]. rewrite E in Hin. apply in_app_or in Hin as [Hin|Hin]; [apply HL, S, Hin|].
    apply O. now right.
Qed.

(** What the scheduler found out when a task may start *)
Lemma runnable_seen n w w' : is_task_runnable orc cf n w = (w', Returns true) ->
  forall t', find_task n w' = Some t' ->
  exists x, (x = get_execution cf t') /\
  (x = XProcess -> exists w0, total_processes (w_tasks w0) < cf_max_process cf /\ grow live_process n 0 w0 w') /\
  (x <> XMain -> allow_multilaunch cf t' = false -> n_alive t' = 0%nat).
Proof.
  intros H t' F'. unfold is_task_runnable in H.
  apply bind_returns in H as (w0 & t & Ht & H). apply get_task_returns in Ht as [-> Ht].
  apply bind_returns in H as (w1 & free & Hf & H).
  destruct free; [|cbn in H; discriminate]. cbn [negb] in H.
  assert (E1 : w1 = w) by (destruct (exec_eqb _ _); unfold has_free_processors, mbind, get, ret in Hf; now inversion Hf).
  subst w1. apply bind_returns in H as (w1 & [] & He & H).
  apply bind_returns in H as (w2 & t1 & Ht1 & H). apply get_task_returns in Ht1 as [-> Ht1].
  destruct (_ && _ && _) eqn:B in H; [cbn in H; discriminate|].
  apply bind_returns in H as (w2 & [] & He2 & H).
  assert (G : forall f, measure_ok f -> grow f n 0 w1 w').
  { intros f M. pose proof (grow_calm f all_moves n M) as C. eapply (c_trans _ _ C).
    - eapply steps_eq; [apply (steps_env C _ HT)|exact He2].
    - eapply steps_eq; [apply (steps_check_task_cond C)|exact H]. }
  assert (G0 : forall f, measure_ok f -> grow f n 0 w w').
  { intros f M. pose proof (grow_calm f all_moves n M) as C. eapply (c_trans _ _ C); [|apply G, M].
    eapply steps_eq; [apply (steps_env C _ HT)|exact He]. }
  pose proof (G0 _ alive_ok) as [GA _]. destruct (find_le _ _ _ _ _ _ _ GA F') as (t2 & F2 & L2).
  unfold find_task in Ht. rewrite Ht in F2. injection F2 as <-.
  exists (get_execution cf t). split; [unfold get_execution; now rewrite (proj1 L2)|]. split.
  - intros X. exists w. split; [|apply G0, process_ok]. rewrite X in Hf. cbn in Hf. unfold mbind, get, ret in Hf.
    injection Hf as Hf. now apply Z.ltb_lt.
  - intros X Mu. destruct (G _ alive_ok) as [GB _]. destruct (find_le _ _ _ _ _ _ _ GB F') as (t2 & F2 & L2').
    unfold find_task in Ht1. rewrite Ht1 in F2. injection F2 as <-. destruct L2' as [E2 K2].
    assert (N : n_alive t' = cnt run_alive t') by reflexivity. rewrite N.
    assert (A : is_alive t1 = false).
    { unfold allow_multilaunch in *. rewrite E2 in Mu. rewrite Mu in B.
      destruct (get_execution cf t); cbn in B; try exact B. now destruct X. }
    enough (cnt run_alive t1 = 0%nat) by (destruct (t_name t1 =? n)%Z; lia).
    unfold is_alive in A. unfold cnt. induction (t_stack t1) as [|r l IH]; [reflexivity|]. cbn in *.
    destruct (run_alive r); [discriminate|]. now apply IH.
Qed.

(** ** One live run *)
Definition single (t : task) : Prop := get_execution cf t <> XMain /\ allow_multilaunch cf t = false.
Definition at_most_one (ts : list task) : Prop := forall t, In t ts -> single t -> (n_alive t <= 1)%nat.
Lemma single_cfg t t' : t_cfg t' = t_cfg t -> single t' -> single t.
Proof. intros E [H1 H2]. unfold single, get_execution, allow_multilaunch in *. now rewrite E in *. Qed.

Lemma le_tasks_in f n k ts ts' t' : le_tasks f n k ts ts' -> In t' ts' -> exists t, In t ts /\ le_task f n k t t'.
Proof.
  intros H; induction H as [|t u ts ts' L _ IH]; intros Hin; [destruct Hin|].
  destruct Hin as [<-|Hin]; [exists t; split; [now left|exact L]|].
  destruct (IH Hin) as (v & Hv & Lv). exists v. split; [now right|exact Lv].
Qed.
Lemma find_unique w n t : distinct_names w -> In t (w_tasks w) -> t_name t = n -> find_task n w = Some t.
Proof.
  unfold distinct_names, find_task. intros U Hin <-. induction (w_tasks w) as [|u ts IH]; [destruct Hin|].
  cbn in *. inversion U as [|? ? Hn U']; subst. destruct (Z.eqb_spec (t_name u) (t_name t)) as [E|E].
  - destruct Hin as [->|Hin]; [reflexivity|]. destruct Hn. rewrite E. now apply in_map.
  - destruct Hin as [->|Hin]; [now destruct E|]. now apply IH.
Qed.

Lemma one_calm : forall n w w', grow run_alive n 0 w w' -> always_seen at_most_one w -> always_seen at_most_one w'.
Proof.
  intros n w w' G I. eapply grow_seen; [|exact G|exact I]. intros ts H t' Hin Si.
  destruct (le_tasks_in _ _ _ _ _ _ H Hin) as (t & Ht & E & K).
  pose proof (proj2 I _ (or_introl eq_refl) t Ht (single_cfg _ _ E Si)) as B.
  unfold n_alive in *. unfold cnt in K. destruct (t_name t =? n)%Z; lia.
Qed.
Lemma one_guarded fuel n : steps (fun w w' => always_seen at_most_one w -> always_seen at_most_one w') (guarded orc cf fuel n).
Proof.
  intros w I. pose proof (grow_calm run_alive all_moves n alive_ok) as C. unfold guarded, mbind at 1.
  pose proof (steps_is_task_runnable C orc cf HT n w) as G1. destruct (is_task_runnable orc cf n w) as [w1 [b|e|]] eqn:E1;
    cbn [fst] in *; try (eapply one_calm; eassumption).
  apply (one_calm _ _ _ G1) in I. unfold mbind at 1.
  pose proof (steps_env C orc HT w1) as G2. destruct (env orc w1) as [w2 [u|e|]] eqn:E2;
    cbn [fst] in *; try (eapply one_calm; eassumption).
  pose proof (one_calm _ _ _ G2 I) as I2. destruct b; [|exact I2].
  pose proof (run_task_at C (grow_start run_alive n alive_ok) orc cf HT fuel w2 (fun _ _ _ _ => Logic.I)) as G3.
  destruct (run_task orc cf fuel n w2) as [w3 o]. cbn [fst] in *.
  eapply grow_seen; [|exact G3|exact I2]. intros ts H t' Hin Si.
  destruct (le_tasks_in _ _ _ _ _ _ H Hin) as (t & Ht & Ec & K).
  pose proof (single_cfg _ _ Ec Si) as St. unfold cnt in K. unfold n_alive.
  destruct (Z.eqb_spec (t_name t) n) as [N|N].
  - pose proof (find_unique _ _ _ (proj1 I2) Ht N) as F2.
    destruct G2 as [G2 _]. destruct (find_le _ _ _ _ _ _ _ G2 F2) as (t1 & F1 & Ec1 & K1).
    destruct (runnable_seen _ _ _ E1 t1 F1) as (x & -> & _ & Z0).
    destruct (single_cfg _ _ Ec1 St) as [S1 S2]. specialize (Z0 S1 S2). unfold cnt in K1. unfold n_alive in Z0.
    destruct (t_name t1 =? n)%Z; lia.
  - pose proof (proj2 I2 _ (or_introl eq_refl) t Ht St) as B. unfold n_alive in B. lia.
Qed.

(** ** Live processes *)
Definition capped (ts : list task) : Prop := total_processes ts <= cf_max_process cf.
Lemma total_le n k ts ts' : le_tasks live_process n k ts ts' -> NoDup (map t_name ts) ->
  total_processes ts' <= total_processes ts + Z.of_nat k.
Proof.
  intros H. assert (Z0 : forall ts ts', le_tasks live_process n k ts ts' -> ~ In n (map t_name ts) -> total_processes ts' <= total_processes ts).
  { clear. intros ts ts' H; induction H as [|t u ts ts' [E K] _ IH]; intros N; [cbn; lia|]. cbn in N.
    change (total_processes (u :: ts')) with (Z.of_nat (count_processes_taken u) + total_processes ts').
    change (total_processes (t :: ts)) with (Z.of_nat (count_processes_taken t) + total_processes ts).
    unfold cnt in K. unfold count_processes_taken. destruct (Z.eqb_spec (t_name t) n); [tauto|]. assert (~ In n (map t_name ts)) by tauto.
    specialize (IH H). lia. }
  induction H as [|t u ts ts' [E K] H IH]; intros U; [cbn; lia|]. cbn in U. inversion U as [|? ? Hn U']; subst.
  change (total_processes (u :: ts')) with (Z.of_nat (count_processes_taken u) + total_processes ts').
  change (total_processes (t :: ts)) with (Z.of_nat (count_processes_taken t) + total_processes ts).
  unfold cnt in K. unfold count_processes_taken. destruct (Z.eqb_spec (t_name t) n) as [N|N].
  - subst n. specialize (Z0 _ _ H Hn). lia.
  - specialize (IH U'). lia.
Qed.
Lemma capped_calm : forall n w w', grow live_process n 0 w w' -> always_seen capped w -> always_seen capped w'.
Proof.
  intros n w w' G I. eapply grow_seen; [|exact G|exact I]. intros ts H.
  pose proof (total_le _ _ _ _ H (proj1 I)). pose proof (proj2 I _ (or_introl eq_refl)). unfold capped in *. lia.
Qed.
Lemma capped_guarded fuel n : steps (fun w w' => always_seen capped w -> always_seen capped w') (guarded orc cf fuel n).
Proof.
  intros w I. pose proof (grow_calm live_process all_moves n process_ok) as C. unfold guarded, mbind at 1.
  pose proof (steps_is_task_runnable C orc cf HT n w) as G1. destruct (is_task_runnable orc cf n w) as [w1 [b|e|]] eqn:E1;
    cbn [fst] in *; try (eapply capped_calm; eassumption).
  apply (capped_calm _ _ _ G1) in I. unfold mbind at 1.
  pose proof (steps_env C orc HT w1) as G2. destruct (env orc w1) as [w2 [u|e|]] eqn:E2;
    cbn [fst] in *; try (eapply capped_calm; eassumption).
  pose proof (capped_calm _ _ _ G2 I) as I2. destruct b; [|exact I2].
  destruct (find_task n w2) as [t2|] eqn:F2.
  2:{ unfold run_task, start_async, mbind, attempt, get_task. rewrite F2. exact I2. }
  destruct (find_le _ _ _ _ _ _ _ (proj1 G2) F2) as (t1 & F1 & Ec1 & K1).
  destruct (runnable_seen _ _ _ E1 t1 F1) as (x & X & P & _).
  destruct (exec_eqb x XProcess) eqn:XP.
  - destruct x; try discriminate. destruct (P eq_refl) as (w0 & Lt & G0).
    pose proof (run_task_at C (grow_start live_process n process_ok) orc cf HT fuel w2 (fun _ _ _ _ => Logic.I)) as G3.
    destruct (run_task orc cf fuel n w2) as [w3 o]. cbn [fst] in *.
    eapply grow_seen; [|exact G3|exact I2]. intros ts H.
    assert (U : NoDup (map t_name (w_tasks w0))).
    { rewrite <- (le_names _ _ _ _ _ (proj1 G0)). exact (proj1 I). }
    pose proof (total_le _ _ _ _ H (proj1 I2)) as A1. pose proof (total_le _ _ _ _ (proj1 G2) (proj1 I)) as A2.
    pose proof (total_le _ _ _ _ (proj1 G0) U) as A3. unfold capped. lia.
  - pose proof (run_task_at C (grow_start0 live_process n process_ok) orc cf HT fuel w2) as G3.
    eapply capped_calm; [apply G3|exact I2]. intros t F r Kr. rewrite F2 in F. injection F as <-.
    unfold live_process. rewrite Kr. replace (get_execution cf t2) with x; [now rewrite XP|].
    rewrite X. unfold get_execution. now rewrite Ec1.
Qed.

(** Whatever [grow] respects is respected by everything else *)
Lemma seen_respects A f L : measure_ok f ->
  (forall n w w', grow f n 0 w w' -> always_seen L w -> always_seen L w') ->
  respects A (fun w w' => always_seen L w -> always_seen L w').
Proof.
  intros M H. constructor.
  - eapply calm_sub; [apply (grow_calm f A 0 M)|auto|auto|]. intros a b. apply H.
  - intros n b w. apply (H 0). apply grow_frame; [reflexivity|right]. eexists; split; [reflexivity|discriminate].
  - intros w. apply (H 0). apply grow_frame; [reflexivity|right]. eexists; split; [reflexivity|discriminate].
  - intros w. apply (H 0). apply grow_frame; [reflexivity|right]. eexists; split; [reflexivity|discriminate].
  - intros w. apply (H 0). apply grow_frame; [reflexivity|right]. eexists; split; [reflexivity|discriminate].
  - intros w. apply (H 0). apply grow_frame; [reflexivity|right]. eexists; split; [reflexivity|discriminate].
  - intros k w. apply (H 0). apply grow_frame; auto.
  - intros w. apply (H 0). apply grow_frame; auto.
  - intros n t w _ _. apply (H 0). exact (c_request _ _ (grow_calm f all_moves 0 M) n [] w I).
Qed.

Lemma one_serve fuel : steps (fun w w' => always_seen at_most_one w -> always_seen at_most_one w') (serve orc cf fuel).
Proof. apply (steps_serve (seen_respects all_moves _ _ alive_ok one_calm) _ _ HT). intros; apply one_guarded. Qed.
Lemma capped_serve fuel : steps (fun w w' => always_seen capped w -> always_seen capped w') (serve orc cf fuel).
Proof. apply (steps_serve (seen_respects all_moves _ _ process_ok capped_calm) _ _ HT). intros; apply capped_guarded. Qed.
End Limit.

(** * In the terms of the specification *)
Lemma live_spec t : live_runs t = filter run_alive (t_stack t).
Proof. reflexivity. Qed.
Lemma single_spec cf t : ~ executes cf t XMain -> ~ multilaunch cf t -> single cf t.
Proof.
  unfold executes, multilaunch, single, get_execution, allow_multilaunch. intros H1 H2. split.
  - destruct (tc_exec (t_cfg t)); congruence.
  - destruct (tc_multi (t_cfg t)) as [[]|]; try reflexivity; [now destruct H2|]. now destruct (cf_multi cf).
Qed.
Lemma single_spec' cf t : single cf t -> ~ executes cf t XMain /\ ~ multilaunch cf t.
Proof.
  unfold executes, multilaunch, single, get_execution, allow_multilaunch. intros [H1 H2]. split.
  - destruct (tc_exec (t_cfg t)); congruence.
  - destruct (tc_multi (t_cfg t)); congruence.
Qed.
Lemma live_process_spec ts : Z.of_nat (length (live_process_runs ts)) = total_processes ts.
Proof.
  unfold live_process_runs. induction ts as [|t ts IH]; [reflexivity|].
  change (total_processes (t :: ts)) with (Z.of_nat (count_processes_taken t) + total_processes ts).
  cbn [map concat]. rewrite filter_app, app_length, Nat2Z.inj_add, IH. f_equal. f_equal.
  unfold count_processes_taken. f_equal. apply filter_ext. intros r. unfold live_process, live, run_alive.
  destruct (rn_phase r), (rn_kind r); reflexivity.
Qed.
Lemma one_live_run orc cf fuel w : distinct_names w ->
  (forall ts t, observed w ts -> In t ts -> ~ executes cf t XMain -> ~ multilaunch cf t -> (length (live_runs t) <= 1)%nat) ->
  forall ts t, observed (fst (serve orc cf fuel w)) ts -> In t ts ->
    ~ executes cf t XMain -> ~ multilaunch cf t -> (length (live_runs t) <= 1)%nat.
Proof.
  intros U H ts t Ho Hin E M.
  assert (A : always_seen (at_most_one cf) w).
  { split; [exact U|]. intros ts' Ho' t' Hin' S'. apply single_spec' in S' as [S1 S2]. exact (H ts' t' Ho' Hin' S1 S2). }
  apply (one_serve orc cf fuel w) in A as [_ A]. exact (A ts Ho t Hin (single_spec _ _ E M)).
Qed.
Lemma process_limit orc cf fuel w : distinct_names w ->
  (forall ts, observed w ts -> Z.of_nat (length (live_process_runs ts)) <= cf_max_process cf) ->
  forall ts, observed (fst (serve orc cf fuel w)) ts -> Z.of_nat (length (live_process_runs ts)) <= cf_max_process cf.
Proof.
  intros U H ts Ho. rewrite live_process_spec.
  assert (A : always_seen (capped cf) w).
  { split; [exact U|]. intros ts' Ho'. unfold capped. rewrite <- live_process_spec. now apply H. }
  apply (capped_serve orc cf fuel w) in A as [_ A]. exact (A ts Ho).
Qed.

