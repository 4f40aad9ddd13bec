(** Running selected tasks (C35). *)
From Coq Require Import Bool Arith Lia ZifyBool.
From Verif Require Import Model.Base Model.History Model.World Model.Run Model.Scheduler.
From Verif Require Import Spec.SchedulerSpec Proofs.WorldProofs Proofs.LimitProofs Proofs.EventProofs.
From Verif Require Import Proofs.PriorityProofs Proofs.RequestProofs Proofs.HoldProofs Proofs.CycleProofs Proofs.ShutdownProofs.
Open Scope Z_scope.

(** * At most one cycle *)
Lemma cycles_app a b : cycles (a ++ b) = (cycles a + cycles b)%nat.
Proof. unfold cycles. now rewrite filter_app, app_length. Qed.
(** No cycle begins; with [b], the counter stays *)
Definition acyc (b : bool) (w w' : world) : Prop :=
  (b = true -> w_cycles w' = w_cycles w) /\ w_shut w' = w_shut w /\ exists evs, happened w w' evs /\ cycles evs = 0%nat.
Lemma acyc_trans b x y z : acyc b x y -> acyc b y z -> acyc b x z.
Proof.
  intros (A1 & A2 & e1 & A3 & A4) (B1 & B2 & e2 & B3 & B4). split; [intros H; rewrite B1, A1; auto|]. split; [congruence|].
  exists (e1 ++ e2). split; [eapply happened_trans; eassumption|]. rewrite cycles_app. lia.
Qed.
Lemma acyc_frame b w w' : w_cycles w' = w_cycles w -> w_shut w' = w_shut w -> w_trace w' = w_trace w -> acyc b w w'.
Proof. intros H1 H2 H3. split; [auto|]. split; [exact H2|]. exists []. split; [exact H3|reflexivity]. Qed.
Lemma acyc_one b e w w' : w_cycles w' = w_cycles w -> w_shut w' = w_shut w -> w_trace w' = e :: w_trace w -> e <> EvCycle -> acyc b w w'.
Proof.
  intros H1 H2 H3 H4. split; [auto|]. split; [exact H2|]. exists [e]. split; [exact H3|]. destruct e; congruence || reflexivity.
Qed.
Lemma acyc_two b e e' w w' : w_cycles w' = w_cycles w -> w_shut w' = w_shut w -> w_trace w' = e' :: e :: w_trace w ->
  e <> EvCycle -> e' <> EvCycle -> acyc b w w'.
Proof.
  intros H1 H2 H3 H4 H5. split; [auto|]. split; [exact H2|]. exists [e; e']. split; [exact H3|]. destruct e, e'; congruence || reflexivity.
Qed.
Lemma acyc_still b : still all_moves (acyc b).
Proof.
  constructor; intros; try (apply acyc_frame; reflexivity); try (eapply acyc_one; [reflexivity..|discriminate]);
    try (eapply acyc_two; [reflexivity..|discriminate|discriminate]). eapply acyc_trans; eassumption.
Qed.
Lemma acyc_calm b : calm all_moves (acyc b).
Proof. constructor; [apply acyc_still|]. intros. eapply acyc_one; [reflexivity..|discriminate]. Qed.
Lemma acyc_heeds b : heeds all_moves (acyc b).
Proof.
  constructor; [apply acyc_calm|..]; intros; try (eapply acyc_one; [reflexivity..|discriminate]).
  eapply acyc_two; [reflexivity..|discriminate|discriminate].
Qed.
Lemma acyc_start b n : start_rel (acyc b) (acyc b) n (fun _ => True).
Proof.
  constructor; [constructor|..]; intros; auto; try (eapply acyc_trans; eassumption); try (eapply acyc_one; [reflexivity..|discriminate]).
  eapply acyc_two; [reflexivity..|discriminate|discriminate].
Qed.

Section Once.
Context (orc : oracle) (cf : config).
Let HT : forall k m, In m (o_env orc k) -> all_moves m := fun _ _ _ => I.
Lemma acyc_guarded b fuel n : steps (acyc b) (guarded orc cf fuel n).
Proof using Type. apply (steps_guarded (acyc_still b) n (acyc_start b n) orc cf HT). Qed.
Definition cycle_rest (fuel : nat) (names : list Z) : M unit :=
  hook orc ;; for_each (cycle_task orc cf fuel) names ;; handle_logs orc cf fuel ;; check_thread_errors cf ;; hook orc.
Lemma cycle_rest_acyc fuel names : steps (acyc true) (cycle_rest fuel names).
Proof using Type.
  pose proof (acyc_still true) as C. unfold cycle_rest.
  st C; [apply (steps_hook C)|apply (steps_for_each C); intros; apply (steps_cycle_task (acyc_heeds true) _ _ HT (acyc_guarded true))
        |apply (steps_handle_logs C _ _ HT)|apply (steps_check_thread_errors C)|apply (steps_hook C)].
Qed.
Lemma bind_assoc {A B D} (m : M A) (f : A -> M B) (g : B -> M D) w :
  mbind (mbind m f) g w = mbind m (fun a => mbind (f a) g) w.
Proof using Type. unfold mbind. destruct (m w) as [w1 [a|e|]]; reflexivity. Qed.
Lemma bind_ext {A B} (m : M A) (f g : A -> M B) w : (forall a w, f a w = g a w) -> mbind m f w = mbind m g w.
Proof using Type. intros H. unfold mbind. destruct (m w) as [w1 [a|e|]]; auto. Qed.
Lemma cycle_eq fuel w : run_cycle orc cf fuel w =
  mbind (cycle_rest fuel (map t_name (by_priority (w_tasks w)))) (fun _ => modify (fun w => set_cycles (S (w_cycles w)) w)) (emit EvCycle w).
Proof using Type.
  unfold run_cycle, cycle_rest. rewrite bind_assoc. change (tasks w) with (w, Returns (map t_name (by_priority (w_tasks w)))).
  unfold mbind at 1. change (tasks w) with (w, Returns (map t_name (by_priority (w_tasks w)))). cbn beta iota. unfold mbind at 1, modify at 1.
  apply bind_ext. intros _ w1. rewrite bind_assoc. apply bind_ext. intros _ w2. rewrite bind_assoc. apply bind_ext. intros _ w3.
  rewrite bind_assoc. apply bind_ext. reflexivity.
Qed.
Lemma cycle_once fuel w w' o : run_cycle orc cf fuel w = (w', o) ->
  w_shut w' = w_shut w /\ (o = Returns tt -> w_cycles w' = S (w_cycles w)) /\ exists evs, happened w w' evs /\ cycles evs = 1%nat.
Proof using Type.
  rewrite cycle_eq. intros H. pose proof (cycle_rest_acyc fuel (map t_name (by_priority (w_tasks w))) (emit EvCycle w)) as (A1 & A2 & evs & A3 & A4).
  assert (X : happened w (fst (cycle_rest fuel (map t_name (by_priority (w_tasks w))) (emit EvCycle w))) (EvCycle :: evs) /\ cycles (EvCycle :: evs) = 1%nat).
  { split; [|change (S (cycles evs) = 1%nat); lia]. apply (happened_trans w (emit EvCycle w) _ [EvCycle] evs); [reflexivity|exact A3]. }
  apply bind_inv in H as [(w1 & [] & E1 & H)|[(e & E1 & ->)|(E1 & ->)]]; rewrite E1 in *; cbn [fst] in *.
  - inversion H; subst. split; [exact A2|]. split; [intros _; cbn; now rewrite A1|]. eauto.
  - split; [exact A2|]. split; [discriminate|]. eauto.
  - split; [exact A2|]. split; [discriminate|]. eauto.
Qed.
Lemma shut_cond_cycles w n : w_shut w = ShutCycles n -> check_shut_cond orc w = (w, Returns (Nat.leb n (w_cycles w))).
Proof using Type. intros H. unfold check_shut_cond, mbind, get. now rewrite H. Qed.
Lemma loop_once fuel w w' o : w_shut w = ShutCycles 1 -> w_cycles w = 0%nat -> main_loop orc cf fuel w = (w', o) ->
  w_shut w' = w_shut w /\ exists evs, happened w w' evs /\ (cycles evs <= 1)%nat.
Proof using Type.
  intros HS HC H. assert (R0 : forall x, w_shut x = w_shut x /\ exists evs, happened x x evs /\ (cycles evs <= 1)%nat).
  { intros x. split; [reflexivity|]. exists []. split; [reflexivity|cbn; lia]. }
  destruct fuel as [|fuel]; cbn [main_loop] in H; [inversion H; subst; apply R0|].
  unfold mbind at 1 in H. rewrite (shut_cond_cycles w 1 HS), HC in H. cbn [Nat.leb] in H.
  pose proof (steps_env (acyc_still true) orc HT w) as (A1 & A2 & e1 & A3 & A4). specialize (A1 eq_refl).
  unfold mbind at 1 in H. destruct (env orc w) as [w1 [[]|e|]] eqn:E; cbn [fst] in *;
    [|inversion H; subst; split; [exact A2|]; exists e1; split; [exact A3|lia]..].
  unfold mbind at 1, get at 1 in H. cbn beta iota in H.
  destruct (w_shutdown w1); [inversion H; subst; split; [exact A2|]; exists e1; split; [exact A3|lia]|].
  unfold mbind at 1, get at 1 in H. cbn beta iota in H.
  destruct (w_restart w1); [inversion H; subst; split; [exact A2|]; exists e1; split; [exact A3|lia]|].
  assert (K : forall w2 o2, run_cycle orc cf fuel w1 = (w2, o2) -> w_shut w2 = w_shut w /\ (exists evs, happened w w2 evs /\ (cycles evs <= 1)%nat) /\
    (o2 = Returns tt -> w_cycles w2 = 1%nat)).
  { intros w2 o2 E2. destruct (cycle_once _ _ _ _ E2) as (B1 & B2 & e2 & B3 & B4). split; [congruence|]. split.
    - exists (e1 ++ e2). split; [eapply happened_trans; eassumption|]. rewrite cycles_app. lia.
    - intros X. rewrite (B2 X). lia. }
  apply bind_inv in H as [(w2 & [] & E2 & H)|[(e & E2 & ->)|(E2 & ->)]];
    destruct (K _ _ E2) as (K1 & K2 & K3); auto. specialize (K3 eq_refl).
  assert (w' = w2) as -> ; [|auto]. destruct fuel as [|fuel]; cbn [main_loop] in H; [now inversion H|].
  unfold mbind at 1 in H. rewrite (shut_cond_cycles w2 1), K3 in H by congruence. cbn [Nat.leb] in H. now inversion H.
Qed.
Lemma startup_acyc fuel : steps (acyc false) (startup orc cf fuel).
Proof using Type.
  pose proof (acyc_still false) as C. unfold startup.
  st C; [eapply acyc_one; [reflexivity..|discriminate]|apply (steps_hook C)| |apply (steps_tasks C)| |apply (steps_hook C)|eapply acyc_one; [reflexivity..|discriminate]].
  - split; [discriminate|]. split; [reflexivity|]. exists []. split; reflexivity.
  - apply (steps_for_each C). intros. apply (steps_startup_task (acyc_heeds false) _ _ HT (acyc_guarded false)).
Qed.
Lemma startup_cycles fuel w w' : startup orc cf fuel w = (w', Returns tt) -> w_cycles w' = 0%nat.
Proof using Type.
  pose proof (acyc_still true) as C. unfold startup. intros H. apply bind_returns in H as (w1 & [] & _ & H). apply bind_returns in H as (w2 & [] & _ & H).
  apply bind_returns in H as (w3 & [] & E & H). injection E as <-.
  assert (acyc true (set_cycles 0 w2) w') as (A & _).
  { eapply steps_eq; [|exact H]. st C; [apply (steps_tasks C)| |apply (steps_hook C)|eapply acyc_one; [reflexivity..|discriminate]].
    apply (steps_for_each C). intros. apply (steps_startup_task (acyc_heeds true) _ _ HT (acyc_guarded true)). }
  now rewrite A.
Qed.
Lemma serve_once fuel w w' o : w_shut w = ShutCycles 1 -> serve orc cf fuel w = (w', o) ->
  exists evs, happened w w' evs /\ (cycles evs <= 1)%nat.
Proof using Type.
  intros HS H. unfold serve in H. apply bind_inv in H as [(w1 & [] & E1 & H)|[(e & E1 & _)|(E1 & _)]]; [|discriminate E1..]. injection E1 as <-.
  set (w1 := set_flags true false false (w_force w) w) in *.
  assert (K : forall w2 o2, (startup orc cf fuel ;; main_loop orc cf fuel) w1 = (w2, o2) -> exists evs, happened w w2 evs /\ (cycles evs <= 1)%nat).
  { intros w2 o2 E2. pose proof (startup_acyc fuel w1) as (_ & A2 & e1 & A3 & A4).
    apply bind_inv in E2 as [(w3 & [] & E2 & H2)|[(e & E2 & ->)|(E2 & ->)]]; rewrite E2 in *; cbn [fst] in *; [|exists e1; split; [exact A3|lia]..].
    destruct (loop_once _ _ _ _ (eq_trans A2 HS) (startup_cycles _ _ _ E2) H2) as (_ & e2 & B1 & B2).
    exists (e1 ++ e2). split; [eapply happened_trans; [exact A3|exact B1]|]. rewrite cycles_app. lia. }
  unfold mbind at 1, attempt in H. destruct ((startup orc cf fuel ;; main_loop orc cf fuel) w1) as [w2 o2] eqn:E2.
  destruct (K _ _ eq_refl) as (e1 & K1 & K2).
  assert (Y : forall (r : result unit) x, (shut_down orc cf fuel x ;; match r with Ok _ | Err SchedulerExit | Err SchedulerRestart => ret tt | Err e => raise e end) w2 = (w', o) ->
    exists evs, happened w w' evs /\ (cycles evs <= 1)%nat).
  { intros r x HY. assert (acyc true w2 w') as (_ & _ & e2 & C1 & C2).
    { pose proof (acyc_still true) as C. eapply steps_eq; [|exact HY].
      st C; [apply (steps_shut_down (acyc_heeds true) _ _ HT (acyc_guarded true))|]. destruct r as [?|[]]; st C. }
    exists (e1 ++ e2). split; [eapply happened_trans; [exact K1|exact C1]|]. rewrite cycles_app. lia. }
  destruct o2 as [a|e|]; [exact (Y (Ok a) _ H)|exact (Y (Err e) _ H)|]. inversion H; subst. eauto.
Qed.
End Once.

(** * The tasks before, during and after *)
Lemma prepare_name names x oc t : t_name (prepare names x oc t) = t_name t.
Proof. unfold prepare. destruct (existsb _ names); [|reflexivity]. destruct x, oc; reflexivity. Qed.
Lemma put_back_prepared old names x oc t0 t1 : t_cfg t1 = t_cfg (prepare names x oc t0) ->
  find (fun o => t_name o =? t_name t0) old = Some t0 ->
  t_cfg (put_back old t1) = t_cfg t0 /\ t_disabled (put_back old t1) = t_disabled t0 /\ t_term (put_back old t1) = t_term t0.
Proof.
  intros E F. assert (En : t_name t1 = t_name t0) by (unfold t_name; rewrite E; apply prepare_name).
  unfold put_back. rewrite En, F. cbn. rewrite E. unfold prepare. split; [|auto].
  destruct (existsb _ names), x, oc; cbn; now destruct (t_cfg t0).
Qed.
Lemma session_settings old names x oc : forall ts0 ts1, map t_cfg ts1 = map t_cfg (map (prepare names x oc) ts0) ->
  (forall t, In t ts0 -> find (fun o => t_name o =? t_name t) old = Some t) ->
  map (fun t => (t_cfg t, t_disabled t, t_term t)) (map (put_back old) ts1) = map (fun t => (t_cfg t, t_disabled t, t_term t)) ts0.
Proof.
  induction ts0 as [|t0 ts0 IH]; intros [|t1 ts1] E F; try discriminate E; [reflexivity|]. cbn in E. injection E as E1 E2.
  cbn [map]. rewrite (IH ts1 E2); [|intros; apply F; now right].
  destruct (put_back_prepared old names x oc t0 t1 E1 (F t0 (or_introl eq_refl))) as (-> & -> & ->). reflexivity.
Qed.

Section Session.
Context (orc : oracle) (cf : config).
Definition ready (names : list Z) (x : option exec) (oc : bool) (w : world) : world :=
  set_shut (ShutCycles 1) (set_tasks (map (prepare names x oc) (w_tasks w)) w).
Lemma session_run_eq fuel names x oc w w' o : session_run orc cf fuel names x oc w = (w', o) ->
  exists w1 o1, serve orc cf fuel (ready names x oc w) = (w1, o1) /\ o = o1 /\
    (o1 <> OutOfFuel -> w' = set_tasks (map (put_back (w_tasks w)) (w_tasks w1)) (set_shut (w_shut w) w1)) /\
    (o1 = OutOfFuel -> w' = w1).
Proof using Type.
  intros H. unfold session_run, mbind at 1, get at 1 in H. cbn beta iota in H. unfold mbind at 1, modify at 1 in H.
  unfold mbind at 1, get at 1 in H. cbn beta iota in H. unfold finally, mbind at 1, attempt in H.
  unfold mbind at 1, modify at 1 in H. fold (ready names x oc w) in H.
  destruct (serve orc cf fuel (ready names x oc w)) as [w1 o1]. exists w1, o1. split; [reflexivity|].
  destruct o1 as [[]|e|]; inversion H; subst; (split; [reflexivity|]); split; congruence || reflexivity.
Qed.
Lemma ready_find names x oc w : distinct_names w -> distinct_names (ready names x oc w).
Proof using Type.
  unfold distinct_names, ready. cbn. rewrite map_map. intros H. erewrite map_ext; [exact H|]. intros t. apply prepare_name.
Qed.
Lemma run_restores fuel names x oc w w' o : distinct_names w -> session_run orc cf fuel names x oc w = (w', o) -> o <> OutOfFuel ->
  settings w' = settings w /\ w_shut w' = w_shut w.
Proof using Type.
  intros N H NO. destruct (session_run_eq _ _ _ _ _ _ _ H) as (w1 & o1 & E & -> & K & _). rewrite (K NO). split; [|reflexivity].
  unfold settings. cbn. apply (session_settings _ names x oc).
  - pose proof (taken_serve orc cf fuel (ready names x oc w)) as [Ec _]. rewrite E in Ec. exact Ec.
  - intros t Ht. exact (find_unique w (t_name t) t N Ht eq_refl).
Qed.
Lemma run_one_cycle fuel names x oc w w' o evs : session_run orc cf fuel names x oc w = (w', o) -> happened w w' evs -> (cycles evs <= 1)%nat.
Proof using Type.
  intros H He. destruct (session_run_eq _ _ _ _ _ _ _ H) as (w1 & o1 & E & -> & K1 & K2).
  destruct (serve_once orc cf fuel (ready names x oc w) w1 o1 eq_refl E) as (e1 & A1 & A2).
  set (s0 := EvState (map (prepare names x oc) (w_tasks w))).
  assert (X : exists tl, cycles tl = 0%nat /\ happened w1 w' tl).
  { destruct o1 as [a|e|]; [rewrite (K1 ltac:(discriminate))..|rewrite (K2 eq_refl)]; [| |exists []; split; reflexivity];
      eexists [_]; (split; [|reflexivity]); reflexivity. }
  destruct X as (tl & T1 & T2).
  assert (happened w w' ([s0] ++ e1 ++ tl)).
  { apply (happened_trans w (ready names x oc w)); [reflexivity|]. eapply happened_trans; eassumption. }
  rewrite (happened_unique _ _ _ _ He H0), !cycles_app. change (cycles [s0]) with 0%nat. lia.
Qed.
Lemma run_only_named fuel names x oc w w' o evs t : distinct_names w ->
  (forall p, never orc (MRequest (t_name t) p)) -> never orc (MDisable (t_name t) false) ->
  session_run orc cf fuel names x oc w = (w', o) -> happened w w' evs ->
  In t (w_tasks w) -> ~ In (t_name t) names -> ~ requested t -> forall u, ~ In (EvStart (t_name t) u) evs.
Proof using Type.
  intros N NR ND H He Ht NI NQ u Hin. destruct (session_run_eq _ _ _ _ _ _ _ H) as (w1 & o1 & E & -> & K1 & K2).
  assert (P : prepare names x oc t = with_disabled true t).
  { unfold prepare. destruct (existsb (Z.eqb (t_name t)) names) eqn:X; [|reflexivity].
    apply existsb_exists in X as (m & Hm & Em). apply Z.eqb_eq in Em. rewrite Em in NI. contradiction. }
  assert (Y : exists e1, happened (ready names x oc w) w1 e1).
  { destruct (serve_once orc cf fuel (ready names x oc w) w1 o1 eq_refl E) as (e1 & A1 & A2). eauto. }
  destruct Y as (e1 & A1). set (s0 := EvState (map (prepare names x oc) (w_tasks w))).
  assert (X : exists tl, (forall n v, ~ In (EvStart n v) tl) /\ happened w1 w' tl).
  { destruct o1 as [a|e|]; [rewrite (K1 ltac:(discriminate))..|rewrite (K2 eq_refl)]; [| |exists []; split; [intros ? ? []|reflexivity]];
      eexists [_]; (split; [|reflexivity]); intros ? ? [X|[]]; discriminate X. }
  destruct X as (tl & T1 & T2).
  assert (Hw : happened w w' ([s0] ++ e1 ++ tl)).
  { apply (happened_trans w (ready names x oc w)); [reflexivity|]. eapply happened_trans; eassumption. }
  rewrite (happened_unique _ _ _ _ He Hw) in Hin. apply in_app_or in Hin as [[Hin|[]]|Hin]; [discriminate Hin|].
  apply in_app_or in Hin as [Hin|Hin]; [|now apply T1 in Hin].
  assert (A1' : happened (ready names x oc w) (fst (serve orc cf fuel (ready names x oc w))) e1) by now rewrite E.
  revert Hin. apply (disabled_idle orc cf fuel (ready names x oc w) e1 (with_disabled true t)); auto; [now apply ready_find|].
  cbn. rewrite <- P. now apply in_map.
Qed.
End Session.
