(** Manual requests, disabled tasks, and holding the scheduler. *)
From Coq Require Import Bool Arith Lia ZifyBool.
From Verif Require Import Model.Base Model.History Model.World Model.Run Model.Scheduler.
From Verif Require Import Spec.SchedulerSpec Proofs.WorldProofs Proofs.LimitProofs Proofs.EventProofs.
Open Scope Z_scope.

(** [w'] continues the trace of [w] by [evs] (oldest first) *)
Lemma happened_trans a b c e1 e2 : happened a b e1 -> happened b c e2 -> happened a c (e1 ++ e2).
Proof. unfold happened. intros H1 H2. now rewrite H2, H1, rev_app_distr, app_assoc. Qed.
Lemma happened_refl w w' : w_trace w' = w_trace w -> happened w w' [].
Proof. intros H. exact H. Qed.
Lemma happened_unique a b e1 e2 : happened a b e1 -> happened a b e2 -> e1 = e2.
Proof.
  unfold happened. intros H1 H2. rewrite H1 in H2. apply app_inv_tail in H2.
  apply (f_equal (@rev event)) in H2. now rewrite !rev_involutive in H2.
Qed.

Lemma find_on_task n m f w : (forall t, t_name (f t) = t_name t) ->
  find_task n (on_task m f w) = option_map (fun t => if t_name t =? m then f t else t) (find_task n w).
Proof.
  intros N. unfold find_task, on_task. cbn [set_tasks w_tasks]. induction (w_tasks w) as [|t ts IH]; [reflexivity|]. cbn.
  replace (t_name (if t_name t =? m then f t else t)) with (t_name t); [|destruct (t_name t =? m); [symmetry; apply N|reflexivity]].
  destruct (t_name t =? n); [reflexivity|exact IH].
Qed.
Lemma find_on_run n u f w : find_task n (on_run u f w) =
  option_map (fun t => with_stack (on_stack u f (t_stack t)) t) (find_task n w).
Proof.
  unfold find_task, on_run. cbn [set_tasks w_tasks]. induction (w_tasks w) as [|t ts IH]; [reflexivity|]. cbn.
  unfold t_name at 1. cbn. fold (t_name t). destruct (t_name t =? n); [reflexivity|exact IH].
Qed.
Lemma find_name n w t : find_task n w = Some t -> t_name t = n.
Proof. intros H. apply find_some in H as [_ H]. lia. Qed.

(** * A relation on the task named [n], for any change to other tasks *)
Section One.
Context (n : Z) (T : task -> list event -> task -> Prop).
Definition one (w w' : world) : Prop :=
  exists evs, happened w w' evs /\
    forall t, find_task n w = Some t -> exists t', find_task n w' = Some t' /\ T t evs t'.
Context (T_refl : forall t, T t [] t) (T_trans : forall a b c e1 e2, T a e1 b -> T b e2 c -> T a (e1 ++ e2) c).
(** The events that leave [T] alone *)
Context (T_state : forall t ts, T t [EvState ts] t).

Lemma one_refl w : one w w.
Proof using T_refl. exists []. split; [reflexivity|]. intros t H. eauto. Qed.
Lemma one_trans a b c : one a b -> one b c -> one a c.
Proof using T_trans.
  intros (e1 & H1 & F1) (e2 & H2 & F2). exists (e1 ++ e2). split; [eapply happened_trans; eassumption|].
  intros t H. destruct (F1 t H) as (t1 & G1 & K1). destruct (F2 t1 G1) as (t2 & G2 & K2). eauto.
Qed.
Lemma one_frame w w' : w_tasks w' = w_tasks w -> w_trace w' = w_trace w -> one w w'.
Proof using T_refl.
  intros E H. exists []. split; [now apply happened_refl|]. intros t F. exists t. split; [|apply T_refl].
  unfold find_task in *. now rewrite E.
Qed.
Lemma one_emit e w : (forall t, t_name t = n -> T t [e] t) -> one w (emit e w).
Proof using Type. intros H. exists [e]. split; [reflexivity|]. intros t F. exists t. split; [exact F|]. apply H. eapply find_name, F. Qed.
Lemma one_on_task m f w : (forall t, t_cfg (f t) = t_cfg t) ->
  (m = n -> forall t ts, t_name t = n -> T t [EvState ts] (f t)) -> one w (on_task m f w).
Proof using T_state.
  intros N H. exists [EvState (w_tasks (on_task m f w))]. split; [reflexivity|]. intros t F.
  rewrite find_on_task by (intros u; unfold t_name; now rewrite N). rewrite F. cbn [option_map]. eexists. split; [reflexivity|].
  pose proof (find_name _ _ _ F) as E. destruct (Z.eqb_spec (t_name t) m) as [X|X]; [apply H; congruence|apply T_state].
Qed.
Lemma one_on_run u f w : (forall t ts, t_name t = n -> T t [EvState ts] (with_stack (on_stack u f (t_stack t)) t)) -> one w (on_run u f w).
Proof using Type.
  intros H. exists [EvState (w_tasks (on_run u f w))]. split; [reflexivity|]. intros t F. rewrite find_on_run, F. cbn [option_map].
  eexists. split; [reflexivity|]. apply H. eapply find_name, F.
Qed.
End One.

Ltac one_frames T_refl := try (apply (one_frame _ _ T_refl); reflexivity).

(** * First requested, first taken *)
Definition fifo_task (n : Z) (t : task) (evs : list event) (t' : task) : Prop :=
  t_batches t ++ requests n evs = takes n evs ++ t_batches t'.
Definition fifo (n : Z) := one n (fifo_task n).
Lemma fifo_refl n t : fifo_task n t [] t.
Proof. unfold fifo_task. cbn. now rewrite app_nil_r. Qed.
Lemma fifo_trans n a b c e1 e2 : fifo_task n a e1 b -> fifo_task n b e2 c -> fifo_task n a (e1 ++ e2) c.
Proof.
  unfold fifo_task, requests, takes. intros H1 H2. rewrite !flat_map_app, app_assoc, H1, <- app_assoc, H2. apply app_assoc.
Qed.
Lemma fifo_same n e t t' : requests n [e] = [] -> takes n [e] = [] -> t_batches t' = t_batches t -> fifo_task n t [e] t'.
Proof. unfold fifo_task. intros -> -> ->. apply app_nil_r. Qed.
Lemma fifo_state n t ts : fifo_task n t [EvState ts] t.
Proof. apply fifo_same; reflexivity. Qed.
Lemma fifo_request n m p w : fifo n w (on_task m (fun t => with_batches (t_batches t ++ [p]) t) (emit (EvRequest m p) w)).
Proof.
  destruct (Z.eqb_spec m n) as [->|N].
  - exists [EvRequest n p; EvState (w_tasks (on_task n (fun t => with_batches (t_batches t ++ [p]) t) (emit (EvRequest n p) w)))].
    split; [reflexivity|]. intros t F. rewrite find_on_task by reflexivity.
    change (find_task n (emit (EvRequest n p) w)) with (find_task n w). rewrite F. cbn [option_map]. eexists. split; [reflexivity|].
    rewrite (find_name _ _ _ F), Z.eqb_refl. unfold fifo_task. cbn. now rewrite Z.eqb_refl.
  - eapply (one_trans _ _ (fifo_trans n)).
    + apply (one_emit n (fifo_task n) (EvRequest m p)). intros t _. apply fifo_same; cbn; auto. destruct (Z.eqb_spec m n); [congruence|reflexivity].
    + apply (one_on_task _ _ (fifo_state n)); [reflexivity|congruence].
Qed.
Lemma fifo_calm A n : calm A (fifo n).
Proof.
  constructor; [constructor|]; intros; try (apply (one_frame _ _ (fifo_refl n)); reflexivity);
    try (apply (one_on_task _ _ (fifo_state n)); [reflexivity|intros _ t ts _; now apply fifo_same]);
    try (apply one_on_run; intros t ts _; now apply fifo_same).
  - eapply (one_trans _ _ (fifo_trans n)); eassumption.
  - apply fifo_request.
  - apply (one_on_task _ _ (fifo_state n)).
    + intros t. unfold drop_exc. destruct (drop_first_exc (t_stack t)); reflexivity.
    + intros _ t ts _. apply fifo_same; auto. unfold drop_exc. destruct (drop_first_exc (t_stack t)); reflexivity.
  - apply (one_emit n (fifo_task n) (EvTerminate n0 u)). intros t _. now apply fifo_same.
Qed.
Lemma fifo_start n m : start_rel (fifo n) (fifo n) m (fun _ => True).
Proof.
  constructor; [constructor; intros; auto| | |]; intros;
    try (apply (one_on_task _ _ (fifo_state n)); [reflexivity|intros _ u ts _; now apply fifo_same]).
  - eapply (one_trans _ _ (fifo_trans n)); eassumption.
  - eapply (one_trans _ _ (fifo_trans n)); eassumption.
  - apply (one_trans _ _ (fifo_trans n)) with (set_uid (S (w_uid w)) w); [apply (one_frame _ _ (fifo_refl n)); reflexivity|].
    apply (one_emit n (fifo_task n) (EvStart m (w_uid w))). intros t _. now apply fifo_same.
  - destruct (Z.eqb_spec m n) as [->|N].
    + exists [EvState (w_tasks (on_task n (with_batches rest) w)); EvTake n (Some p)]. split; [reflexivity|].
      intros t' F. change (find_task n (emit (EvTake n (Some p)) (on_task n (with_batches rest) w))) with (find_task n (on_task n (with_batches rest) w)).
      rewrite find_on_task by reflexivity. rewrite F. rewrite F in H. injection H as ->. cbn [option_map]. eexists. split; [reflexivity|].
      rewrite (find_name _ _ _ F), Z.eqb_refl. unfold fifo_task. cbn. rewrite Z.eqb_refl, H0. cbn. now rewrite app_nil_r.
    + eapply (one_trans _ _ (fifo_trans n)).
      * apply (one_on_task _ _ (fifo_state n) m (with_batches rest)); [reflexivity|congruence].
      * apply (one_emit n (fifo_task n) (EvTake m (Some p))). intros u _. apply fifo_same; cbn; auto. destruct (Z.eqb_spec m n); [congruence|reflexivity].
  - apply (one_emit n (fifo_task n) (EvTake m None)). intros t _. now apply fifo_same.
Qed.
Lemma fifo_respects A n : respects A (fifo n).
Proof.
  constructor; [apply fifo_calm|intros..];
    try (apply (one_frame _ _ (fifo_refl n)); reflexivity).
  - apply (one_emit n (fifo_task n) (EvConsider n0 b)). intros t _. now apply fifo_same.
  - apply (one_emit n (fifo_task n) EvCycle). intros t _. now apply fifo_same.
  - apply (one_emit n (fifo_task n) EvStartup). intros t _. now apply fifo_same.
  - apply (one_emit n (fifo_task n) EvStarted). intros t _. now apply fifo_same.
  - apply (one_emit n (fifo_task n) EvShutdown). intros t _. now apply fifo_same.
  - apply fifo_request.
Qed.
Lemma fifo_serve orc cf fuel n w evs t : find_task n w = Some t -> happened w (fst (serve orc cf fuel w)) evs ->
  exists t', find_task n (fst (serve orc cf fuel w)) = Some t' /\
    t_batches t ++ requests n evs = takes n evs ++ t_batches t'.
Proof.
  intros F H. pose proof (steps_serve (fifo_respects all_moves n) orc cf (fun _ _ _ => I)
    (fun fuel m => steps_guarded (fifo_calm all_moves n) m (fifo_start n m) orc cf (fun _ _ _ => I) fuel) fuel w) as (evs' & H' & K).
  rewrite (happened_unique _ _ _ _ H H') in *. exact (K t F).
Qed.

(** * Disabled and not requested *)
Definition idle (t : task) : Prop := t_disabled t = true /\ t_batches t = [].
Lemma idle_dec t : {idle t} + {~ idle t}.
Proof.
  unfold idle. destruct (t_disabled t), (t_batches t); (left; now split) || (right; intros []; discriminate).
Defined.
Definition not_started (n : Z) (evs : list event) : Prop := forall u, ~ In (EvStart n u) evs.
Definition idle_task (n : Z) (t : task) (evs : list event) (t' : task) : Prop :=
  idle t -> idle t' /\ not_started n evs.
Lemma idle_refl n t : idle_task n t [] t.
Proof. intros H. split; [exact H|]. intros u []. Qed.
Lemma idle_trans n a b c e1 e2 : idle_task n a e1 b -> idle_task n b e2 c -> idle_task n a (e1 ++ e2) c.
Proof.
  intros H1 H2 Ia. destruct (H1 Ia) as [Ib N1]. destruct (H2 Ib) as [Ic N2]. split; [exact Ic|].
  intros u Hu. apply in_app_or in Hu as [Hu|Hu]; [now apply N1 in Hu|now apply N2 in Hu].
Qed.
Lemma idle_same n e t t' : (forall u, e <> EvStart n u) -> (idle t -> idle t') -> idle_task n t [e] t'.
Proof. intros N H Hi. split; [auto|]. intros u [Hu|[]]. now apply N in Hu. Qed.
Lemma idle_state n t ts : idle_task n t [EvState ts] t.
Proof. apply idle_same; [discriminate|auto]. Qed.
Definition leaves_idle (n : Z) (m : move) : Prop :=
  match m with MRequest k _ => k <> n | MDisable k false => k <> n | _ => True end.
Definition idles (n : Z) := one n (idle_task n).
Lemma idle_calm n : calm (leaves_idle n) (idles n).
Proof.
  constructor; [constructor|]; intros; try (apply (one_frame _ _ (idle_refl n)); reflexivity);
    try (apply (one_on_task _ _ (idle_state n)); [reflexivity|intros _ t ts _; apply idle_same; [discriminate|intros []; now split]]);
    try (apply one_on_run; intros t ts _; apply idle_same; [discriminate|intros []; now split]).
  - eapply (one_trans _ _ (idle_trans n)); eassumption.
  - eapply (one_trans _ _ (idle_trans n)).
    + apply (one_emit n (idle_task n) (EvRequest n0 p)). intros t _. apply idle_same; [discriminate|auto].
    + apply (one_on_task _ _ (idle_state n)); [reflexivity|]. cbn in H. congruence.
  - apply (one_on_task _ _ (idle_state n)); [reflexivity|]. intros E t ts _. apply idle_same; [discriminate|].
    destruct b; [intros []; now split|]. cbn in H. congruence.
  - apply (one_on_task _ _ (idle_state n)).
    + intros t. unfold drop_exc. destruct (drop_first_exc (t_stack t)); reflexivity.
    + intros _ t ts _. apply idle_same; [discriminate|]. intros []. unfold drop_exc. destruct (drop_first_exc (t_stack t)); now split.
  - apply (one_emit n (idle_task n) (EvTerminate n0 u)). intros t _. apply idle_same; [discriminate|auto].
Qed.
Lemma idle_push n m : push_rel (idles n) (idles n) m (fun _ => True).
Proof.
  constructor; intros; auto;
    try (apply (one_on_task _ _ (idle_state n)); [reflexivity|intros _ u ts _; apply idle_same; [discriminate|intros []; now split]]).
  - eapply (one_trans _ _ (idle_trans n)); eassumption.
  - eapply (one_trans _ _ (idle_trans n)); eassumption.
Qed.
Lemma idle_start n m : m <> n -> start_rel (idles n) (idles n) m (fun _ => True).
Proof.
  intros N. constructor; [apply idle_push|intros..].
  - apply (one_trans _ _ (idle_trans n)) with (set_uid (S (w_uid w)) w); [apply (one_frame _ _ (idle_refl n)); reflexivity|].
    apply (one_emit n (idle_task n) (EvStart m (w_uid w))). intros t _. apply idle_same; [congruence|auto].
  - eapply (one_trans _ _ (idle_trans n)).
    + apply (one_on_task _ _ (idle_state n) m (with_batches rest)); [reflexivity|congruence].
    + apply (one_emit n (idle_task n) (EvTake m (Some p))). intros u _. apply idle_same; [discriminate|auto].
  - apply (one_emit n (idle_task n) (EvTake m None)). intros t _. apply idle_same; [discriminate|auto].
Qed.

Section Idle.
Context (orc : oracle) (cf : config) (n : Z) (HA : forall k m, In m (o_env orc k) -> leaves_idle n m).
Let C := idle_calm n.

Lemma check_idle w w' b : (exists t, find_task n w = Some t /\ idle t) -> check_task_cond orc cf n w = (w', Returns b) -> b = false.
Proof using Type.
  intros (t & F & D & B) H. unfold check_task_cond, is_runnable, attempt, mbind, get_task in H.
  rewrite F, B, D in H. cbn in H. now inversion H.
Qed.
Lemma one_found (P : task -> Prop) (T : task -> list event -> task -> Prop) w w' : one n T w w' ->
  (forall t evs t', T t evs t' -> P t -> P t') -> (exists t, find_task n w = Some t /\ P t) -> exists t, find_task n w' = Some t /\ P t.
Proof using Type. intros (evs & _ & K) H (t & F & Pt). destruct (K t F) as (t' & F' & K'). eauto. Qed.
Lemma runnable_idle w w' b : (exists t, find_task n w = Some t /\ idle t) -> is_task_runnable orc cf n w = (w', Returns b) -> b = false.
Proof using HA.
  intros I H. unfold is_task_runnable in H.
  apply bind_returns in H as (w1 & t & Ht & H). apply get_task_returns in Ht as [-> Ht].
  apply bind_returns in H as (w1 & free & Hf & H).
  assert (w1 = w) by (destruct (exec_eqb _ _); unfold has_free_processors, mbind, get, ret in Hf; now inversion Hf). subst w1.
  destruct free; [|cbn in H; now inversion H]. cbn [negb] in H.
  apply bind_returns in H as (w1 & [] & He & H). apply bind_returns in H as (w2 & t1 & Ht1 & H). apply get_task_returns in Ht1 as [-> Ht1].
  destruct (_ && _ && _) in H; [cbn in H; now inversion H|].
  apply bind_returns in H as (w2 & [] & He2 & H). eapply check_idle; [|exact H].
  pose proof (steps_env C orc HA w) as G1. rewrite He in G1. pose proof (steps_env C orc HA w1) as G2. rewrite He2 in G2. cbn [fst] in *.
  eapply one_found; [exact G2|intros t0 e t0' K Hi; exact (proj1 (K Hi))|].
  eapply one_found; [exact G1|intros t0 e t0' K Hi; exact (proj1 (K Hi))|exact I].
Qed.
Lemma idle_guarded fuel m : steps (idles n) (guarded orc cf fuel m).
Proof using HA.
  destruct (Z.eq_dec m n) as [->|N]; [|apply (steps_guarded C m (idle_start n m N) orc cf HA)].
  intros w. unfold guarded. pose proof (steps_is_task_runnable C orc cf HA n w) as G1.
  destruct (find_task n w) as [t|] eqn:F.
  - destruct (idle_dec t) as [Hi|Hi].
    + unfold mbind at 1. destruct (is_task_runnable orc cf n w) as [w1 [b|e|]] eqn:E; try exact G1.
      apply runnable_idle in E; [|eauto]. subst b. unfold mbind. pose proof (steps_env C orc HA w1) as G2.
      destruct (env orc w1) as [w2 [u|e|]]; cbn [fst] in *; eapply (one_trans _ _ (idle_trans n)); eassumption.
    + (* nothing to show *)
      pose proof (guarded_miles orc cf fuel n w) as [Ec (new & Tr & _)]. unfold guarded in *.
      exists (rev new). split; [unfold happened; now rewrite rev_involutive|]. intros t' F'. rewrite F in F'. injection F' as <-.
      assert (Cf : cfg_of n (fst ((b <- is_task_runnable orc cf n ;; env orc ;; (if b then run_task orc cf fuel n else ret tt)) w)) = cfg_of n w)
        by now apply cfg_of_eq.
      unfold cfg_of in Cf. rewrite F in Cf. destruct (find_task n (fst _)) as [t'|] eqn:F'; [|discriminate].
      exists t'. split; [reflexivity|]. intros X. contradiction.
  - pose proof (guarded_miles orc cf fuel n w) as [Ec (new & Tr & _)]. exists (rev new). split; [unfold happened; now rewrite rev_involutive|].
    intros t F'. rewrite F in F'. discriminate.
Qed.
Lemma idle_respects : respects (leaves_idle n) (idles n).
Proof using Type.
  constructor; [apply idle_calm|intros..]; try (apply (one_frame _ _ (idle_refl n)); reflexivity).
  - apply (one_emit n (idle_task n) (EvConsider n0 b)). intros t _. apply idle_same; [discriminate|auto].
  - apply (one_emit n (idle_task n) EvCycle). intros t _. apply idle_same; [discriminate|auto].
  - apply (one_emit n (idle_task n) EvStartup). intros t _. apply idle_same; [discriminate|auto].
  - apply (one_emit n (idle_task n) EvStarted). intros t _. apply idle_same; [discriminate|auto].
  - apply (one_emit n (idle_task n) EvShutdown). intros t _. apply idle_same; [discriminate|auto].
  - destruct (Z.eq_dec n0 n) as [->|N].
    + exists [EvRequest n []; EvState (w_tasks (on_task n (fun t => with_batches (t_batches t ++ [[]]) t) (emit (EvRequest n []) w)))].
      split; [reflexivity|]. intros t' F. rewrite find_on_task by reflexivity.
      change (find_task n (emit (EvRequest n []) w)) with (find_task n w). rewrite F in *. injection H as ->. cbn [option_map]. eexists.
      split; [reflexivity|]. intros [D _]. congruence.
    + eapply (one_trans _ _ (idle_trans n)).
      * apply (one_emit n (idle_task n) (EvRequest n0 [])). intros u _. apply idle_same; [discriminate|auto].
      * apply (one_on_task _ _ (idle_state n)); [reflexivity|congruence].
Qed.
Lemma idle_serve fuel : steps (idles n) (serve orc cf fuel).
Proof using HA. apply (steps_serve idle_respects orc cf HA). intros; apply idle_guarded. Qed.
End Idle.
