(** Which starts, considerations and phases a function adds to the trace. *)
From Coq Require Import Bool Arith Lia ZifyBool.
From Verif Require Import Model.Base Model.History Model.World Model.Run Model.Scheduler.
From Verif Require Import Spec.SchedulerSpec Proofs.WorldProofs Proofs.LimitProofs.
Open Scope Z_scope.

Definition mile (e : event) : bool :=
  match e with
  | EvState _ | EvRequest _ _ | EvTerminate _ _ => false
  | _ => true
  end.
(** [w'] continues [w]: same settings, and the milestones of the new events are
    in [P] *)
Definition adds (P : list event -> Prop) (w w' : world) : Prop :=
  map t_cfg (w_tasks w') = map t_cfg (w_tasks w) /\
  exists new, w_trace w' = new ++ w_trace w /\ P (filter mile new).
Definition nothing (ms : list event) : Prop := ms = [].
Definition quiet : world -> world -> Prop := adds nothing.

Lemma adds_seq (P Q S : list event -> Prop) a b c : (forall x y, P x -> Q y -> S (y ++ x)) ->
  adds P a b -> adds Q b c -> adds S a c.
Proof.
  intros H [E1 (n1 & T1 & P1)] [E2 (n2 & T2 & P2)]. split; [congruence|].
  exists (n2 ++ n1). split; [rewrite T2, T1; apply app_assoc|]. rewrite filter_app. auto.
Qed.
Lemma adds_weak (P Q : list event -> Prop) a b : (forall x, P x -> Q x) -> adds P a b -> adds Q a b.
Proof. intros H [E (n & T & X)]. split; [exact E|]. exists n. auto. Qed.
Lemma quiet_l P a b c : quiet a b -> adds P b c -> adds P a c.
Proof. intros H1 H2. eapply adds_seq; [|exact H1|exact H2]. intros x y -> H. now rewrite app_nil_r. Qed.
Lemma quiet_r P a b c : adds P a b -> quiet b c -> adds P a c.
Proof. intros H1 H2. eapply adds_seq; [|exact H1|exact H2]. intros x y H ->. exact H. Qed.

Lemma quiet_frame w w' : w_tasks w' = w_tasks w -> w_trace w' = w_trace w -> quiet w w'.
Proof. intros E T. split; [now rewrite E|]. exists []. now split. Qed.
Lemma adds_emit (P : list event -> Prop) e w : P (filter mile [e]) -> adds P w (emit e w).
Proof. intros H. split; [reflexivity|]. exists [e]. now split. Qed.
Lemma quiet_map g w : (forall t, t_cfg (g t) = t_cfg t) -> quiet w (set_tasks (map g (w_tasks w)) w).
Proof.
  intros H. split.
  - cbn. rewrite map_map. apply map_ext. exact H.
  - exists [EvState (map g (w_tasks w))]. now split.
Qed.
Lemma quiet_on_task n g w : (forall t, t_cfg (g t) = t_cfg t) -> quiet w (on_task n g w).
Proof. intros H. apply quiet_map. intros t. destruct (_ =? _); auto. Qed.
Lemma quiet_on_run u g w : quiet w (on_run u g w).
Proof. apply quiet_map. reflexivity. Qed.
Lemma quiet_calm A : calm A quiet.
Proof.
  constructor; [constructor|]; intros; try (apply quiet_frame; reflexivity); try (apply quiet_on_task; reflexivity); try apply quiet_on_run.
  - eapply quiet_l; eassumption.
  - eapply quiet_l; [apply (adds_emit _ (EvRequest n p)); reflexivity|]. apply quiet_on_task. reflexivity.
  - apply quiet_on_task. intros t. unfold drop_exc. destruct (drop_first_exc (t_stack t)); reflexivity.
  - apply adds_emit. reflexivity.
Qed.
Lemma quiet_push n : push_rel quiet quiet n (fun _ => True).
Proof.
  constructor; intros; try (apply quiet_on_task; reflexivity); auto.
  - eapply quiet_l; eassumption.
  - eapply quiet_l; eassumption.
Qed.

(** * Rules for statements *)
Section Rules.
Lemma adds_bind {A B} (P Q S : list event -> Prop) (m : M A) (f : A -> M B) :
  (forall x y, P x -> Q y -> S (y ++ x)) -> (forall x, P x -> S x) ->
  steps (adds P) m -> (forall a, steps (adds Q) (f a)) -> steps (adds S) (mbind m f).
Proof.
  intros H1 H2 Hm Hf w. specialize (Hm w). unfold mbind. destruct (m w) as [w' [a|e|]]; cbn [fst] in *;
    [|eapply adds_weak; eassumption|eapply adds_weak; eassumption].
  eapply adds_seq; [exact H1|exact Hm|apply Hf].
Qed.
Lemma bind_quiet {A B} (P : list event -> Prop) (m : M A) (f : A -> M B) : P [] ->
  steps quiet m -> (forall a, steps (adds P) (f a)) -> steps (adds P) (mbind m f).
Proof.
  intros P0. apply adds_bind; [|now intros x ->]. intros x y -> H. now rewrite app_nil_r.
Qed.
Lemma quiet_bind {A B} (P : list event -> Prop) (m : M A) (f : A -> M B) :
  steps (adds P) m -> (forall a, steps quiet (f a)) -> steps (adds P) (mbind m f).
Proof. apply adds_bind; auto. now intros x y H ->. Qed.
Lemma weak_quiet {A} (P : list event -> Prop) (m : M A) : P [] -> steps quiet m -> steps (adds P) m.
Proof. intros P0 H w. eapply adds_weak; [|apply H]. now intros x ->. Qed.
(** A statement followed by another only if it returned *)
Lemma bind_inv {A B} (m : M A) (f : A -> M B) w w' o : mbind m f w = (w', o) ->
  (exists w1 a, m w = (w1, Returns a) /\ f a w1 = (w', o)) \/
  (exists e, m w = (w', Raises e) /\ o = Raises e) \/ (m w = (w', OutOfFuel) /\ o = OutOfFuel).
Proof.
  unfold mbind. destruct (m w) as [w1 [a|e|]] eqn:E; intros H.
  - left. eauto.
  - right; left. injection H as <- <-. eauto.
  - right; right. injection H as <- <-. auto.
Qed.
End Rules.

Section Events.
Context (orc : oracle) (cf : config).
Let C : calm all_moves quiet := quiet_calm all_moves.
Let HT : forall k m, In m (o_env orc k) -> all_moves m := fun _ _ _ => I.

(** Milestones of one start: the start, then the parameters it takes *)
Definition start_miles (n : Z) (ms : list event) : Prop :=
  ms = [] \/ (exists u, ms = [EvStart n u]) \/ (exists u p, ms = [EvTake n p; EvStart n u]).
Definition take_miles (n : Z) (ms : list event) : Prop := ms = [] \/ exists p, ms = [EvTake n p].

Lemma direct_miles n : steps (adds (take_miles n)) (get_direct_params n).
Proof.
  unfold get_direct_params. apply bind_quiet; [now left|apply (steps_get_task C)|]. intros t.
  destruct (t_batches t) as [|p rest].
  - apply steps_modify. intros w. apply adds_emit. right. now exists None.
  - apply bind_quiet; [now left|apply steps_modify; intros w; now apply quiet_on_task|]. intros _.
    apply steps_modify. intros w. apply adds_emit. right. now exists (Some p).
Qed.
(** What follows the start event *)
Definition start_rest (fuel : nat) (n : Z) (x : exec) (start : Z) (uid : nat) : M unit :=
  finally
    (r <- attempt (e <- ask (o_prep orc) ;; raise_if e ;; get_direct_params n ;; get_run_id orc) ;;
     match r with
     | Err e => start_failed orc x n None e
     | Ok rid =>
         r <- attempt (launch orc fuel x n uid start rid) ;;
         match r with
         | Ok _ => ret tt
         | Err e => start_failed orc x n (Some rid) e
         end
     end)
    (modify (on_task n (fun t => with_stack (filter (fun r => negb (exec_eqb (rn_kind r) XMain)) (t_stack t)) t))).
Lemma start_async_eq fuel n w :
  start_async orc cf fuel n w =
  match find_task n w with
  | None => (w, Raises KeyError)
  | Some t => start_rest fuel n (get_execution cf t) (w_clock w) (w_uid w)
                (emit (EvStart n (w_uid w)) (set_uid (S (w_uid w)) w))
  end.
Proof. unfold start_async, mbind at 1, get_task. destruct (find_task n w); reflexivity. Qed.
Lemma start_rest_miles fuel n x start uid : steps (adds (take_miles n)) (start_rest fuel n x start uid).
Proof.
  unfold start_rest, finally. apply quiet_bind.
  - apply steps_attempt. apply quiet_bind.
    + apply steps_attempt. do 2 (apply bind_quiet; [now left|apply (steps_ask C) || apply (steps_raise_if C)|intro]).
      apply quiet_bind; [apply direct_miles|intros _; apply (steps_get_run_id C)].
    + intros [rid|e]; [|apply (steps_start_failed C)]. apply (steps_bind C).
      * apply steps_attempt. apply (steps_launch C (quiet_push n) _ HT). auto.
      * intros [u|e]; [apply (steps_ret C)|apply (steps_start_failed C)].
  - intros r. st C; [now apply quiet_on_task|]. destruct r; st C.
Qed.
Lemma start_async_miles fuel n : steps (adds (start_miles n)) (start_async orc cf fuel n).
Proof.
  intros w. rewrite start_async_eq. destruct (find_task n w) as [t|]; cbn [fst].
  2:{ eapply adds_weak; [|apply (c_refl _ _ C)]. intros x ->. now left. }
  assert (A1 : adds (fun ms => ms = [EvStart n (w_uid w)]) w (emit (EvStart n (w_uid w)) (set_uid (S (w_uid w)) w))).
  { split; [reflexivity|]. exists [EvStart n (w_uid w)]. now split. }
  eapply adds_seq; [|exact A1|apply start_rest_miles].
  intros x y -> [->|(p & ->)]; right; [left|right]; cbn; eauto.
Qed.
Lemma run_task_miles fuel n : steps (adds (start_miles n)) (run_task orc cf fuel n).
Proof.
  unfold run_task. apply quiet_bind; [apply steps_attempt, start_async_miles|].
  intros [u|e]; [st C|]. destruct e; st C; [destruct (cf_silence_prerun cf)|destruct (cf_silence_logging cf)]; st C.
Qed.
Lemma guarded_miles fuel n : steps (adds (start_miles n)) (guarded orc cf fuel n).
Proof.
  unfold guarded. apply bind_quiet; [now left|apply (steps_is_task_runnable C _ _ HT)|]. intros b.
  apply bind_quiet; [now left|apply (steps_env C _ HT)|]. intros _.
  destruct b; [apply run_task_miles|]. apply weak_quiet; [now left|st C].
Qed.

(** * A turn in a cycle *)
Definition ordinary (c : tcfg) : bool := negb (tc_startup c || tc_shutdown c).
Definition cfg_of (n : Z) (w : world) : option tcfg := option_map t_cfg (find_task n w).
(** [done]: the turn was completed *)
Definition turn_miles (c : option tcfg) (n : Z) (done : bool) (ms : list event) : Prop :=
  match c with
  | None => done = false /\ ms = []
  | Some c =>
    if ordinary c then
      (done = false /\ ms = []) \/
      ms = [EvConsider n true] \/
      exists s, ms = s ++ [EvConsider n false] /\ start_miles n s
    else ms = []
  end.
Definition finished {A} (o : outcome A) : bool := match o with Returns _ => true | _ => false end.

Lemma cfg_of_eq n w w' : map t_cfg (w_tasks w') = map t_cfg (w_tasks w) -> cfg_of n w' = cfg_of n w.
Proof.
  unfold cfg_of, find_task. generalize (w_tasks w) as ts, (w_tasks w') as ts'. intros ts ts'. revert ts.
  induction ts' as [|t' ts' IH]; intros [|t ts] H; cbn in H; try discriminate; [reflexivity|].
  injection H as E H. cbn. unfold t_name. rewrite E. destruct (tc_name (t_cfg t) =? n)%Z; cbn; [now rewrite E|auto].
Qed.
Lemma quiet_cfg n w w' : quiet w w' -> cfg_of n w' = cfg_of n w.
Proof. intros [E _]. now apply cfg_of_eq. Qed.

Lemma bind_quiet_at {A B} (P : bool -> list event -> Prop) (m : M A) (f : A -> M B) w :
  P false [] -> steps quiet m ->
  (forall w1 a, m w = (w1, Returns a) -> quiet w w1 ->
     adds (P (finished (snd (f a w1)))) w1 (fst (f a w1))) ->
  adds (P (finished (snd (mbind m f w)))) w (fst (mbind m f w)).
Proof.
  intros P0 Hm Hf. specialize (Hm w). unfold mbind. destruct (m w) as [w1 [a|e|]]; cbn [fst snd finished] in *.
  - eapply quiet_l; [exact Hm|]. now apply Hf.
  - eapply adds_weak; [|exact Hm]. now intros x ->.
  - eapply adds_weak; [|exact Hm]. now intros x ->.
Qed.
Lemma turn_false c n : turn_miles c n false [].
Proof. destruct c as [c|]; cbn; [|auto]. destruct (ordinary c); auto. Qed.

Lemma cycle_task_miles fuel n w :
  adds (turn_miles (cfg_of n w) n (finished (snd (cycle_task orc cf fuel n w)))) w (fst (cycle_task orc cf fuel n w)).
Proof.
  unfold cycle_task.
  apply (bind_quiet_at (turn_miles (cfg_of n w) n)); [apply turn_false|apply (steps_env C _ HT)|]. intros w1 _ _ Q1.
  rewrite <- (quiet_cfg n _ _ Q1).
  apply (bind_quiet_at (turn_miles (cfg_of n w1) n)); [apply turn_false|apply (steps_handle_logs C _ _ HT)|]. intros w2 _ _ Q2.
  rewrite <- (quiet_cfg n _ _ Q2).
  apply (bind_quiet_at (turn_miles (cfg_of n w2) n)); [apply turn_false|apply (steps_clean C)|]. intros w3 _ _ Q3.
  rewrite <- (quiet_cfg n _ _ Q3).
  apply (bind_quiet_at (turn_miles (cfg_of n w3) n)); [apply turn_false|apply (steps_env C _ HT)|]. intros w4 _ _ Q4.
  rewrite <- (quiet_cfg n _ _ Q4). clear Q1 Q2 Q3 Q4 w w1 w2 w3.
  apply (bind_quiet_at (turn_miles (cfg_of n w4) n)); [apply turn_false|apply (steps_get_task C)|]. intros w5 t H5 _.
  apply get_task_returns in H5 as [-> F]. unfold cfg_of. rewrite F. cbn [option_map turn_miles].
  assert (T : steps quiet (env orc ;; check_termination orc cf n)).
  { st C; [apply (steps_env C _ HT)|apply (steps_check_termination C _ _ HT)]. }
  destruct (tc_startup (t_cfg t) || tc_shutdown (t_cfg t)) eqn:Sp.
  - assert (O : ordinary (t_cfg t) = false) by (unfold ordinary; now rewrite Sp).
    eapply adds_weak; [|apply (steps_bind C (ret tt) _ (steps_ret C tt) (fun _ => T))].
    intros x ->. cbn [turn_miles]. now rewrite O.
  - assert (O : ordinary (t_cfg t) = true) by (unfold ordinary; now rewrite Sp).
    set (T0 := env orc ;; check_termination orc cf n) in *.
    set (body := (enabled <- get w_enabled ;; _)). 
    assert (B : adds (turn_miles (Some (t_cfg t)) n true) w4 (fst (body w4))).
    { unfold body. unfold mbind at 1. cbn [get]. unfold mbind at 1. cbn [modify].
      destruct (w_enabled w4); cbn [negb].
      - change (b <- is_task_runnable orc cf n ;; env orc ;; (if b then run_task orc cf fuel n else ret tt))
          with (guarded orc cf fuel n).
        eapply adds_seq; [|apply (adds_emit (fun ms => ms = [EvConsider n false]) (EvConsider n false)); reflexivity
          |apply guarded_miles].
        intros x y -> Hy. cbn [turn_miles]. rewrite O. right; right. exists y. auto.
      - eapply adds_weak; [|apply (adds_emit (fun ms => ms = [EvConsider n true]) (EvConsider n true)); reflexivity].
        intros x ->. cbn [turn_miles]. rewrite O. auto. }
    assert (W : forall b ms, turn_miles (Some (t_cfg t)) n true ms -> turn_miles (Some (t_cfg t)) n b ms).
    { intros b ms. cbn [turn_miles]. rewrite O. intros [[X _]|X]; [discriminate|auto]. }
    unfold mbind. destruct (body w4) as [w5 [u|e|]]; cbn [fst snd] in *;
      [|eapply adds_weak; [|exact B]; apply W|eapply adds_weak; [|exact B]; apply W].
    eapply adds_weak; [apply W|]. eapply quiet_r; [exact B|apply T].
Qed.

(** * All the turns of a cycle, oldest first *)
Inductive turns (cfg : Z -> option tcfg) : bool -> list Z -> list event -> Prop :=
| turns_nil : turns cfg true [] []
| turns_stop : forall n ns ms, turn_miles (cfg n) n false (rev ms) -> turns cfg false (n :: ns) ms
| turns_cons : forall d n ns ms rest, turn_miles (cfg n) n true (rev ms) -> turns cfg d ns rest ->
    turns cfg d (n :: ns) (ms ++ rest).

Lemma for_each_turns fuel (cfg : Z -> option tcfg) ns : forall w, (forall n, cfg_of n w = cfg n) ->
  adds (fun ms => turns cfg (finished (snd (for_each (cycle_task orc cf fuel) ns w))) ns (rev ms)) w
    (fst (for_each (cycle_task orc cf fuel) ns w)).
Proof.
  induction ns as [|n ns IH]; intros w E; cbn [for_each].
  - eapply adds_weak; [|apply (c_refl _ _ C)]. intros x ->. constructor.
  - pose proof (cycle_task_miles fuel n w) as T. rewrite E in T. unfold mbind.
    destruct (cycle_task orc cf fuel n w) as [w1 [u|e|]]; cbn [fst snd finished] in *.
    + assert (E1 : forall m, cfg_of m w1 = cfg m) by (intros m; rewrite <- E; apply cfg_of_eq, (proj1 T)).
      eapply adds_seq; [|exact T|apply IH, E1]. intros x y X Y. cbn beta. rewrite rev_app_distr.
      constructor; [now rewrite rev_involutive|exact Y].
    + eapply adds_weak; [|exact T]. intros x X. constructor. now rewrite rev_involutive.
    + eapply adds_weak; [|exact T]. intros x X. constructor. now rewrite rev_involutive.
Qed.
Lemma run_cycle_turns fuel w :
  adds (fun ms => exists tl d, rev ms = EvCycle :: tl /\
          (turns (fun n => cfg_of n w) d (map t_name (by_priority (w_tasks w))) tl \/ (d = false /\ tl = [])) /\
          (finished (snd (run_cycle orc cf fuel w)) = true -> d = true))
    w (fst (run_cycle orc cf fuel w)).
Proof.
  set (ns := map t_name (by_priority (w_tasks w))). set (w1 := emit EvCycle w).
  set (tl := handle_logs orc cf fuel ;; check_thread_errors cf ;; hook orc ;; modify (fun w => set_cycles (S (w_cycles w)) w)).
  assert (E : run_cycle orc cf fuel w = (hook orc ;; for_each (cycle_task orc cf fuel) ns ;; tl) w1) by reflexivity.
  rewrite E. clear E.
  assert (A1 : adds (fun ms => ms = [EvCycle]) w w1) by (apply (adds_emit _ EvCycle); reflexivity).
  pose proof (steps_hook C orc w1) as H1.
  destruct ((hook orc ;; for_each (cycle_task orc cf fuel) ns ;; tl) w1) as [w' o] eqn:E. cbn [fst snd].
  apply bind_inv in E as [(w2 & u & E1 & E)|[(e & E1 & ->)|[E1 ->]]]; rewrite E1 in H1; cbn [fst] in H1.
  2,3: eapply adds_weak; [|eapply quiet_r; [exact A1|exact H1]]; intros x ->; exists [], false; cbn; repeat split; auto; discriminate.
  assert (E2 : forall n, cfg_of n w2 = cfg_of n w).
  { intros n. apply cfg_of_eq. rewrite (proj1 H1). apply (proj1 A1). }
  pose proof (for_each_turns fuel (fun n => cfg_of n w) ns w2 E2) as H2.
  apply bind_inv in E as [(w3 & v & E3 & E)|[(e & E3 & ->)|[E3 ->]]]; rewrite E3 in H2; cbn [fst snd finished] in *.
  2,3: (eapply adds_seq; [|eapply quiet_r; [exact A1|exact H1]|exact H2]; intros x y -> Y; exists (rev y), false;
        rewrite rev_app_distr; cbn; repeat split; auto; discriminate).
  assert (H3 : steps quiet tl).
  { unfold tl. st C; [apply (steps_handle_logs C _ _ HT)|apply (steps_check_thread_errors C)|apply (steps_hook C)|].
    apply quiet_frame; reflexivity. }
  specialize (H3 w3). rewrite E in H3. eapply quiet_r; [|exact H3].
  eapply adds_seq; [|eapply quiet_r; [exact A1|exact H1]|exact H2]. intros x y -> Y. exists (rev y), true.
  rewrite rev_app_distr. cbn. repeat split; auto.
Qed.
End Events.
