(** Running selected tasks: each named task starts (C35). *)
From Coq Require Import Bool Arith Lia ZifyBool Permutation.
From Verif Require Import Model.Base Model.History Model.World Model.Run Model.Scheduler.
From Verif Require Import Spec.SchedulerSpec Proofs.WorldProofs Proofs.LimitProofs Proofs.EventProofs.
From Verif Require Import Proofs.PriorityProofs Proofs.RequestProofs Proofs.StartProofs Proofs.HoldProofs Proofs.CycleProofs Proofs.ShutdownProofs.
From Verif Require Import Proofs.SessionProofs Proofs.LogFailProofs.
Open Scope Z_scope.

Section Named.
Context (orc : oracle) (cf : config) (n : Z).
Let HT : forall k m, In m (o_env orc k) -> all_moves m := fun _ _ _ => I.
Let C := keeps_calm all_moves n.

Lemma keeps_heeds_other m : m <> n -> forall fuel, steps (keeps n) (run_special orc cf fuel m).
Proof using Type.
  intros N fuel. unfold run_special. apply (steps_bind C); [st C|intros a]. apply (steps_bind C); [|intros _].
  - destruct (_ && _); st C.
    + apply (one_emit n keeps_task (EvRequest m [])). intros t _. now apply keeps_same.
    + apply (one_on_task _ _ keeps_state); [reflexivity|congruence].
  - apply (steps_guarded C m (keeps_start n m N) orc cf HT fuel).
Qed.
Definition cached (m : Z) : M unit :=
  env orc ;; r <- attempt (set_cached_m orc m) ;;
  match r with Ok _ => ret tt | Err TaskLoggingError => if cf_silence_logging cf then ret tt else raise TaskLoggingError | Err e => raise e end.
Lemma keeps_cached m : steps (keeps n) (cached m).
Proof using Type.
  unfold cached. st C; [apply (steps_env C _ HT)|apply (steps_set_cached C)|].
  destruct a0 as [?|[]]; st C. destruct (cf_silence_logging cf); st C.
Qed.
Lemma startup_task_eq fuel m w : startup_task orc cf fuel m w =
  mbind (cached m) (fun _ => t <- get_task m ;; if tc_startup (t_cfg t) then run_special orc cf fuel m else ret tt) w.
Proof using Type. unfold startup_task, cached. rewrite !bind_assoc. apply bind_ext. intros [] w1. now rewrite bind_assoc. Qed.
Lemma keeps_startup_task fuel m w t : find_task n w = Some t -> cyclic_task t -> keeps n w (fst (startup_task orc cf fuel m w)).
Proof using Type.
  intros F [Cy _]. destruct (Z.eq_dec m n) as [->|N].
  - rewrite startup_task_eq. pose proof (keeps_cached n w) as K. unfold mbind at 1.
    destruct (cached n w) as [w1 [[]|e|]]; cbn [fst] in *; try exact K.
    pose proof K as (evs & _ & K1). destruct (K1 t F) as (t1 & F1 & [[Ec _] _]).
    unfold mbind, get_task. rewrite F1, Ec, Cy. exact K.
  - rewrite startup_task_eq. refine (steps_bind C _ _ (keeps_cached m) _ w). intros []. apply (steps_bind C); [st C|].
    intros a. destruct (tc_startup (t_cfg a)); [apply (keeps_heeds_other m N)|st C].
Qed.
Lemma keeps_cyclic t evs t' : keeps_task t evs t' -> cyclic_task t -> cyclic_task t'.
Proof using Type. intros [[Ec _] _] [A B]. split; now rewrite Ec. Qed.
Lemma keeps_startup_tasks fuel ns : forall w t, find_task n w = Some t -> cyclic_task t -> keeps n w (fst (for_each (startup_task orc cf fuel) ns w)).
Proof using Type.
  induction ns as [|m ns IH]; intros w t F Cy; [apply (one_refl _ _ keeps_refl)|]. cbn [for_each].
  pose proof (keeps_startup_task fuel m w t F Cy) as K. unfold mbind.
  destruct (startup_task orc cf fuel m w) as [w1 [[]|e|]]; cbn [fst] in *; try exact K.
  pose proof K as (evs & _ & K1). destruct (K1 t F) as (t1 & F1 & T1).
  eapply (one_trans _ _ keeps_trans); [exact K|]. apply (IH w1 t1 F1). eapply keeps_cyclic; eassumption.
Qed.
Lemma keeps_startup fuel w w' t : find_task n w = Some t -> cyclic_task t -> startup orc cf fuel w = (w', Returns tt) -> keeps n w w'.
Proof using Type.
  intros F Cy H. unfold startup in H.
  apply bind_returns in H as (w1 & [] & E1 & H). injection E1 as <-.
  apply bind_returns in H as (w2 & [] & E2 & H). apply bind_returns in H as (w3 & [] & E3 & H). injection E3 as <-.
  apply bind_returns in H as (w4 & ns & E4 & H). unfold tasks, get in E4. injection E4 as <- <-.
  apply bind_returns in H as (w5 & [] & E5 & H). apply bind_returns in H as (w6 & [] & E6 & H). injection H as <-.
  assert (K2 : keeps n w (set_cycles 0 w2)).
  { eapply (one_trans _ _ keeps_trans); [apply (one_emit n keeps_task EvStartup); intros; now apply keeps_same|].
    eapply (one_trans _ _ keeps_trans); [eapply steps_eq; [|exact E2]; apply (steps_hook C)|]. apply (one_frame _ _ keeps_refl); reflexivity. }
  pose proof K2 as (evs & _ & K2'). destruct (K2' t F) as (t2 & F2 & T2).
  eapply (one_trans _ _ keeps_trans); [exact K2|].
  pose proof (keeps_startup_tasks fuel (map t_name (by_priority (w_tasks w2))) _ _ F2 (keeps_cyclic _ _ _ T2 Cy)) as K5. rewrite E5 in K5. cbn [fst] in K5.
  eapply (one_trans _ _ keeps_trans); [exact K5|].
  eapply (one_trans _ _ keeps_trans); [eapply steps_eq; [|exact E6]; apply (steps_hook C)|].
  apply (one_emit n keeps_task EvStarted); intros; now apply keeps_same.
Qed.

Context (HA : forall k m, In m (o_env orc k) -> no_hold true m).
Lemma stays_startup fuel : steps (stays true) (startup orc cf fuel).
Proof using HA.
  pose proof (stays_calm true) as Cb. unfold startup.
  st Cb; [unfold stays; auto|apply (steps_hook Cb)|unfold stays; auto|apply (steps_tasks Cb)| |apply (steps_hook Cb)|unfold stays; auto].
  apply (steps_for_each Cb). intros m. unfold startup_task.
  st Cb; [apply (steps_env Cb _ HA)|apply (steps_set_cached Cb)| |].
  - match goal with a : result unit |- _ => destruct a as [?|[]] end; st Cb. destruct (cf_silence_logging cf); st Cb.
  - destruct (tc_startup _); [|st Cb]. unfold run_special. apply (steps_bind Cb); [st Cb|intros b]. apply (steps_bind Cb); [|intros _].
    + destruct (_ && _); st Cb; unfold stays; auto.
    + apply (stays_guarded orc cf true fuel m HA).
Qed.

Lemma cyc_in evs : In EvCycle evs -> cycles evs <> 0%nat.
Proof using Type.
  unfold cycles. intros H E. apply length_zero_iff_nil in E.
  assert (X : In EvCycle (filter (fun e => match e with EvCycle => true | _ => false end) evs)) by (apply filter_In; auto).
  rewrite E in X. exact X.
Qed.
Lemma cycle_counts fuel w w' o : run_cycle orc cf fuel w = (w', o) -> o = Returns tt \/ w_cycles w' = w_cycles w.
Proof using Type.
  rewrite cycle_eq. intros H.
  pose proof (cycle_rest_acyc orc cf fuel (map t_name (by_priority (w_tasks w))) (emit EvCycle w)) as (A1 & _). specialize (A1 eq_refl).
  apply bind_inv in H as [(w1 & [] & E1 & H)|[(e & E1 & ->)|(E1 & ->)]]; rewrite E1 in *; cbn [fst] in *; [left|right; exact A1..].
  now inversion H.
Qed.
Lemma loop_starts fuel w w' o evs t : w_shut w = ShutCycles 1 -> w_cycles w = 0%nat -> w_enabled w = true -> distinct_names w ->
  find_task n w = Some t -> cyclic_task t -> fit cf t -> proc_free cf t ->
  main_loop orc cf fuel w = (w', o) -> happened w w' evs -> w_cycles w' = 1%nat -> exists u, In (EvStart n u) evs.
Proof using HA.
  intros HS HC He HD F Cy Ft Np H Hev H1.
  destruct fuel as [|fuel]; cbn [main_loop] in H; [inversion H; subst; congruence|].
  unfold mbind at 1 in H. rewrite (shut_cond_cycles orc w 1 HS), HC in H. cbn [Nat.leb] in H.
  pose proof (steps_env (acyc_still true) orc HT w) as (A1 & A2 & _). specialize (A1 eq_refl).
  pose proof (steps_env C orc HT w) as (e1 & A3 & K). pose proof (steps_env (stays_calm true) orc HA w He) as We.
  destruct (K t F) as (t1 & F1 & T1).
  pose proof (steps_env (rs_calm _ _ cfgs_respects) orc HT w) as D1.
  unfold mbind at 1 in H. destruct (env orc w) as [w1 [[]|e|]] eqn:E; cbn [fst] in *; [|inversion H; subst; congruence..].
  unfold mbind at 1, get at 1 in H. cbn beta iota in H. destruct (w_shutdown w1); [inversion H; subst; congruence|].
  unfold mbind at 1, get at 1 in H. cbn beta iota in H. destruct (w_restart w1); [inversion H; subst; congruence|].
  assert (X : exists w2, run_cycle orc cf fuel w1 = (w2, Returns tt) /\ w' = w2).
  { apply bind_inv in H as [(w2 & [] & E2 & H)|[(e & E2 & ->)|(E2 & ->)]];
      [|destruct (cycle_counts _ _ _ _ E2) as [X|X]; [discriminate X|congruence]..].
    exists w2. split; [exact E2|]. destruct (cycle_once _ _ _ _ _ _ E2) as (B1 & B2 & _). specialize (B2 eq_refl).
    destruct fuel as [|fuel]; cbn [main_loop] in H; [now inversion H|].
    unfold mbind at 1 in H. rewrite (shut_cond_cycles orc w2 1) in H by congruence.
    replace (Nat.leb 1 (w_cycles w2)) with true in H by (symmetry; apply Nat.leb_le; lia). now inversion H. }
  destruct X as (w2 & E2 & ->). destruct (cycle_once _ _ _ _ _ _ E2) as (_ & _ & e2 & B3 & _).
  destruct (cycle_starts orc cf n HA fuel w1 w2 t1 e2) as (u & Hu); auto.
  - now apply (cfgs_distinct w).
  - now apply find_some in F1 as [F1 _].
  - now apply find_name in F1.
  - eapply keeps_cyclic; eassumption.
  - eapply keeps_fit; eassumption.
  - unfold proc_free. now rewrite (keeps_exec cf _ _ _ T1).
  - exists u. rewrite (happened_unique _ _ _ _ Hev (happened_trans _ _ _ _ _ A3 B3)). apply in_or_app. now right.
Qed.
Lemma serve_starts fuel w w' o evs t : w_shut w = ShutCycles 1 -> distinct_names w -> find_task n w = Some t -> cyclic_task t -> fit cf t -> proc_free cf t ->
  serve orc cf fuel w = (w', o) -> happened w w' evs -> In EvCycle evs -> w_cycles w' = 1%nat -> exists u, In (EvStart n u) evs.
Proof using HA.
  intros HS HD F Cy Ft Np H Hev Hc H1. unfold serve in H.
  apply bind_inv in H as [(w1 & [] & E1 & H)|[(e & E1 & _)|(E1 & _)]]; [|discriminate E1..]. injection E1 as <-.
  set (w1 := set_flags true false false (w_force w) w) in *.
  assert (K : forall w2 o2 e2, (startup orc cf fuel ;; main_loop orc cf fuel) w1 = (w2, o2) -> happened w w2 e2 -> In EvCycle e2 -> w_cycles w2 = 1%nat ->
    exists u, In (EvStart n u) e2).
  { intros w2 o2 e2 E2 He2 Hc2 Hw2. pose proof (startup_acyc orc cf fuel w1) as (_ & A2 & es & A3 & A4).
    apply bind_inv in E2 as [(w3 & [] & E2 & H2)|[(e & E2 & ->)|(E2 & ->)]]; pose proof (stays_startup fuel w1 eq_refl) as We; rewrite E2 in *; cbn [fst] in *;
      [|rewrite (happened_unique _ _ _ _ He2 A3) in Hc2; now apply cyc_in in Hc2..].
    assert (F1 : find_task n w1 = Some t) by exact F.
    destruct (keeps_startup fuel w1 w3 t F1 Cy E2) as (e3 & B3 & K3). destruct (K3 t F1) as (t3 & F3 & T3).
    assert (D3 : distinct_names w3).
    { apply (cfgs_distinct w1); [|exact HD]. eapply steps_eq; [|exact E2]. apply (steps_startup cfgs_respects _ _ HT). intros. apply cfgs_guarded. }
    destruct (loop_once _ _ _ _ _ _ (eq_trans A2 HS) (startup_cycles _ _ _ _ _ E2) H2) as (_ & e4 & B4 & _).
    destruct (loop_starts fuel w3 w2 o2 e4 t3) as (u & Hu); auto.
    - now rewrite A2.
    - exact (startup_cycles _ _ _ _ _ E2).
    - eapply keeps_cyclic; eassumption.
    - eapply keeps_fit; eassumption.
    - unfold proc_free. now rewrite (keeps_exec cf _ _ _ T3).
    - exists u. rewrite (happened_unique _ _ _ _ He2 (happened_trans w1 _ _ _ _ B3 B4)). apply in_or_app. now right. }
  unfold mbind at 1, attempt in H. destruct ((startup orc cf fuel ;; main_loop orc cf fuel) w1) as [w2 o2] eqn:E2.
  assert (Y : forall (r : result unit) x, (shut_down orc cf fuel x ;; match r with Ok _ | Err SchedulerExit | Err SchedulerRestart => ret tt | Err e => raise e end) w2 = (w', o) ->
    exists u, In (EvStart n u) evs).
  { intros r x HY. assert (acyc true w2 w') as (Z1 & _ & e3 & C1 & C2).
    { pose proof (acyc_still true) as Ca. eapply steps_eq; [|exact HY].
      st Ca; [apply (steps_shut_down (acyc_heeds true) _ _ HT (acyc_guarded orc cf true))|]. destruct r as [?|[]]; st Ca. }
    specialize (Z1 eq_refl).
    assert (A : exists e2, happened w w2 e2).
    { pose proof (steps_bind (rs_calm _ _ (fifo_respects all_moves n)) _ _ (steps_startup (fifo_respects all_moves n) orc cf HT
        (fun fl m => steps_guarded (fifo_calm all_moves n) m (fifo_start n m) orc cf HT fl) fuel)
        (fun _ => steps_main_loop (fifo_respects all_moves n) orc cf HT
        (fun fl m => steps_guarded (fifo_calm all_moves n) m (fifo_start n m) orc cf HT fl) fuel) w1) as (e2 & A & _).
      rewrite E2 in A. exists e2. exact A. }
    destruct A as (e2 & A2). pose proof (happened_trans _ _ _ _ _ A2 C1) as A. rewrite (happened_unique _ _ _ _ Hev A) in *.
    destruct (K w2 o2 e2 eq_refl A2) as (u & Hu).
    - apply in_app_or in Hc as [Hc|Hc]; [exact Hc|]. now apply cyc_in in Hc.
    - congruence.
    - exists u. apply in_or_app. now left. }
  destruct o2 as [a|e|]; [exact (Y (Ok a) _ H)|exact (Y (Err e) _ H)|]. inversion H; subst. apply (K w' OutOfFuel evs); auto.
Qed.
End Named.

Lemma run_named orc cf fuel names x w w' o evs t : distinct_names w -> never orc (MHold true) ->
  session_run orc cf fuel names x false w = (w', o) -> happened w w' evs -> In EvCycle evs -> w_cycles w' = 1%nat ->
  In t (w_tasks w) -> In (t_name t) names -> cyclic_task t ->
  ~ runs_as cf t x XProcess -> (runs_as cf t x XMain \/ multilaunch cf t \/ live_runs t = []) ->
  exists u, In (EvStart (t_name t) u) evs.
Proof.
  intros HD NH H Hev Hc H1 Ht Hn Cy Np Ms. destruct (session_run_eq _ _ _ _ _ _ _ _ _ H) as (w1 & o1 & E & -> & K1 & K2).
  set (s0 := EvState (map (prepare names x false) (w_tasks w))).
  assert (X : exists tl, cycles tl = 0%nat /\ happened w1 w' tl).
  { destruct o1 as [a|e|]; [rewrite (K1 ltac:(discriminate))..|rewrite (K2 eq_refl)]; [| |exists []; split; reflexivity];
      eexists [_]; (split; [|reflexivity]); reflexivity. }
  destruct X as (tl & T1 & T2).
  destruct (serve_once orc cf fuel (ready names x false w) w1 o1 eq_refl E) as (e1 & A1 & _).
  assert (Hw : happened w w' ([s0] ++ e1 ++ tl)).
  { apply (happened_trans w (ready names x false w)); [reflexivity|]. eapply happened_trans; eassumption. }
  rewrite (happened_unique _ _ _ _ Hev Hw) in *.
  assert (H1' : w_cycles w1 = 1%nat) by (rewrite <- H1; destruct o1 as [a|e|]; [rewrite (K1 ltac:(discriminate))..|rewrite (K2 eq_refl)]; reflexivity).
  set (t1 := prepare names x false t).
  assert (P : t1 = match x with Some _ => with_exec x (with_batches (t_batches t ++ [[]]) t) | None => with_batches (t_batches t ++ [[]]) t end).
  { unfold t1, prepare. replace (existsb (Z.eqb (t_name t)) names) with true; [reflexivity|].
    symmetry. apply existsb_exists. exists (t_name t). split; [exact Hn|apply Z.eqb_refl]. }
  assert (B1 : t_batches t1 = t_batches t ++ [[]]) by (rewrite P; destruct x; reflexivity).
  assert (S1 : t_stack t1 = t_stack t) by (rewrite P; destruct x; reflexivity).
  assert (X1 : forall y, executes cf t1 y <-> runs_as cf t x y) by (intros y; rewrite P; destruct x; reflexivity).
  assert (M1 : multilaunch cf t1 <-> multilaunch cf t) by (rewrite P; destruct x; reflexivity).
  assert (C1 : cyclic_task t1) by (rewrite P; destruct x, Cy; split; assumption).
  assert (N1 : t_name t1 = t_name t) by apply prepare_name.
  destruct (serve_starts orc cf (t_name t) (no_hold_never _ _ NH) fuel (ready names x false w) w1 o1 e1 t1) as (u & Hu); auto.
  - now apply ready_find.
  - apply find_unique; [now apply ready_find| |exact N1]. cbn. now apply in_map.
  - split; [rewrite B1; now destruct (t_batches t)|]. apply may_spec. unfold may_start. rewrite X1, M1. unfold live_runs. rewrite S1. exact Ms.
  - intros Y. apply Np, X1, exec_spec. exact Y.
  - apply in_app_or in Hc as [[Hc|[]]|Hc]; [discriminate Hc|]. apply in_app_or in Hc as [Hc|Hc]; [exact Hc|]. now apply cyc_in in Hc.
  - exists u. apply in_or_app. right. apply in_or_app. now left.
Qed.
