(** Shutting down (C33). *)
From Coq Require Import Bool Arith Lia ZifyBool Permutation.
From Verif Require Import Model.Base Model.History Model.World Model.Run Model.Scheduler.
From Verif Require Import Spec.SchedulerSpec Proofs.WorldProofs Proofs.LimitProofs Proofs.EventProofs.
From Verif Require Import Proofs.PriorityProofs Proofs.RequestProofs Proofs.StartProofs Proofs.StackProofs Proofs.TerminationProofs.
Open Scope Z_scope.

Lemma finally_inv {A} (m : M A) f w w' o : finally m f w = (w', o) -> o <> OutOfFuel ->
  exists w1 o1 o2, m w = (w1, o1) /\ o1 <> OutOfFuel /\ f w1 = (w', o2) /\ o2 <> OutOfFuel /\
    (forall a, o = Returns a -> o1 = Returns a /\ o2 = Returns tt).
Proof.
  unfold finally, mbind, attempt. intros H N. destruct (m w) as [w1 [a|e|]]; [| |congruence];
    destruct (f w1) as [w2 [[]|e'|]] eqn:F; inversion H; subst; try congruence;
    eexists; eexists; eexists; (split; [reflexivity|]); (split; [discriminate|]); (split; [exact F|]);
    (split; [discriminate|]); intros ? K; inversion K; subst; auto.
Qed.

(** * No run is live in the end *)
Definition all_over (w : world) : Prop := forall r, In r (tracked w) -> live r = false.
Lemma all_over_live w : all_over w <-> forall u, ~ live_in w u.
Proof.
  split.
  - intros H u (r & Hr & _ & L). rewrite (H r Hr) in L. discriminate.
  - intros H r Hr. destruct (live r) eqn:L; [|reflexivity]. destruct (H (rn_uid r)). now exists r.
Qed.
Lemma shrinks_over w w' : shrinks w w' -> all_over w -> all_over w'.
Proof. rewrite !all_over_live. intros S H u L. apply (H u). eapply shrinks_live; eassumption. Qed.
Lemma total_cons t ts : total_alive (t :: ts) = Z.of_nat (n_alive t) + total_alive ts.
Proof. reflexivity. Qed.
Lemma alive_nonneg ts : 0 <= total_alive ts.
Proof. induction ts as [|t ts IH]; [reflexivity|]. rewrite total_cons. lia. Qed.
Lemma none_alive w : total_alive (w_tasks w) <= 0 -> all_over w.
Proof.
  unfold all_over, tracked. induction (w_tasks w) as [|t ts IH]; intros H r Hr; [destruct Hr|].
  rewrite total_cons in H. pose proof (alive_nonneg ts) as P. cbn in Hr. apply in_app_or in Hr as [Hr|Hr]; [|apply IH; [lia|exact Hr]].
  destruct (live r) eqn:L; [|reflexivity]. assert (K : In r (filter run_alive (t_stack t))) by (apply filter_In; split; [exact Hr|exact L]).
  unfold n_alive in H. destruct (filter run_alive (t_stack t)); [destruct K|cbn [length] in H; lia].
Qed.

Section Shutdown.
Context (orc : oracle) (cf : config).
Let HT : forall k m, In m (o_env orc k) -> all_moves m := fun _ _ _ => I.
Let C := shrinks_calm all_moves.
Let G := grows_calm.

Lemma wait_alive_over fuel : forall w w' o, wait_task_alive orc fuel w = (w', o) -> o <> OutOfFuel -> o = Returns tt /\ all_over w'.
Proof.
  induction fuel as [|fuel IH]; intros w w' o H N; cbn [wait_task_alive] in H; [inversion H; congruence|].
  unfold mbind at 1, get at 1 in H. cbn beta iota in H. destruct (0 <? total_alive (w_tasks w)) eqn:L.
  - destruct (env_returns orc w) as (w1 & E). unfold mbind in H. rewrite E in H. now apply (IH w1).
  - inversion H; subst. split; [reflexivity|]. apply none_alive. lia.
Qed.
Lemma shut_down_over fuel x w w' o : o_hook orc (w_tick w) = None -> shut_down orc cf fuel x w = (w', o) -> o <> OutOfFuel -> all_over w'.
Proof.
  intros HK H N. unfold shut_down in H.
  apply bind_inv in H as [(wa & [] & Ea & H)|[(e & Ea & _)|(Ea & _)]]; [|discriminate Ea..]. injection Ea as <-.
  assert (Eh : snd (hook orc (emit EvShutdown w)) = Returns tt).
  { unfold hook, mbind, ask. change (w_tick (emit EvShutdown w)) with (w_tick w). now rewrite HK. }
  apply bind_inv in H as [(wb & [] & _ & H)|[(e & Ea & _)|(Ea & _)]]; [|rewrite Ea in Eh; discriminate Eh..].
  apply finally_inv in H as (w1 & o1 & o2 & H & N1 & H2 & _); [|exact N].
  apply finally_inv in H as (w3 & o3 & o4 & H & N3 & H4 & N4 & _); [|exact N1].
  assert (S2 : shrinks w1 w') by (eapply steps_eq; [|exact H2]; apply (steps_hook C)).
  apply (shrinks_over _ _ S2). destruct (wait_task_alive orc fuel w3) as [w5 o5] eqn:W.
  assert (N5 : o5 <> OutOfFuel).
  { intros ->. unfold mbind at 1 in H4. rewrite W in H4. inversion H4; subst. congruence. }
  destruct (wait_alive_over _ _ _ _ W N5) as [-> O]. unfold mbind at 1 in H4. rewrite W in H4.
  eapply shrinks_over; [|exact O]. eapply steps_eq; [|exact H4]. st C; [apply (steps_handle_logs C _ _ HT)|apply (steps_check_thread_errors C)].
Qed.
Lemma serve_over fuel w : (forall k, o_hook orc k = None) -> snd (serve orc cf fuel w) <> OutOfFuel -> all_over (fst (serve orc cf fuel w)).
Proof.
  intros HK N. destruct (serve orc cf fuel w) as [w' o] eqn:E. cbn [fst snd] in *. unfold serve in E.
  apply bind_inv in E as [(w1 & [] & E1 & E)|[(e & E1 & _)|(E1 & _)]]; [|discriminate E1..].
  apply bind_inv in E as [(w2 & r & E2 & E)|[(e & E2 & ->)|(E2 & ->)]]; [| |congruence].
  - apply bind_inv in E as [(w3 & [] & E3 & E)|[(e & E3 & ->)|(E3 & ->)]].
    + assert (w' = w3) as -> by (destruct r as [?|[]]; inversion E; reflexivity). eapply shut_down_over; [apply HK|exact E3|discriminate].
    + eapply shut_down_over; [apply HK|exact E3|discriminate].
    + congruence.
  - unfold attempt in E2. destruct ((startup orc cf fuel ;; main_loop orc cf fuel) w1) as [? [?|?|]]; discriminate E2.
Qed.

(** * Terminating everything *)
Lemma owner w t t' r r' : distinct_runs w -> In t (w_tasks w) -> In t' (w_tasks w) -> In r (t_stack t) -> In r' (t_stack t') ->
  rn_uid r = rn_uid r' -> t = t'.
Proof using Type.
  unfold distinct_runs, tracked. induction (w_tasks w) as [|a ts IH]; intros D Ht Ht' Hr Hr' E; [destruct Ht|].
  cbn in D. rewrite map_app in D.
  assert (X : forall b x y, In b ts -> In x (t_stack a) -> In y (t_stack b) -> rn_uid x = rn_uid y -> False).
  { intros b x y Hb Hx Hy Exy. clear - D Hb Hx Hy Exy.
    assert (I1 : In (rn_uid x) (map rn_uid (t_stack a))) by now apply in_map.
    assert (I2 : In (rn_uid x) (map rn_uid (concat (map t_stack ts)))).
    { rewrite Exy. apply in_map, in_concat. exists (t_stack b). split; [now apply in_map|exact Hy]. }
    revert D I1 I2. generalize (map rn_uid (t_stack a)) (map rn_uid (concat (map t_stack ts))). intros l1 l2 D.
    induction l1 as [|z l1 IH]; intros I1 I2; [destruct I1|]. cbn in D. inversion D as [|? ? D1 D2]; subst.
    destruct I1 as [-> | I1]; [apply D1, in_or_app; now right|auto]. }
  assert (D2 : NoDup (map rn_uid (concat (map t_stack ts)))).
  { clear - D. induction (map rn_uid (t_stack a)) as [|z l IHl]; [exact D|]. inversion D; subst. auto. }
  destruct Ht as [-> | Ht], Ht' as [-> | Ht']; auto.
  - destruct (X t' r r'); auto.
  - destruct (X t r' r); auto.
Qed.
Lemma shrinks_in w w' t' : shrinks w w' -> In t' (w_tasks w') -> exists t, In t (w_tasks w) /\ less_task t t'.
Proof using Type.
  intros [H _] Hin. induction H as [|a b ts us L H IH]; [destruct Hin|]. destruct Hin as [-> | Hin].
  - exists a. split; [now left|exact L].
  - destruct (IH Hin) as (t & Ht & Lt). exists t. split; [now right|exact Lt].
Qed.
(** A live run stays with its task. *)
Lemma live_task w w1 t r : distinct_names w -> distinct_runs w -> In t (w_tasks w) -> In r (t_stack t) -> shrinks w w1 ->
  live_in w1 (rn_uid r) -> exists t1 r1, find_task (t_name t) w1 = Some t1 /\ In r1 (t_stack t1) /\ rn_uid r1 = rn_uid r /\ live r1 = true.
Proof using Type.
  intros N D Ht Hr S (r1 & Hr1 & E1 & L1). apply in_concat in Hr1 as (l & Hl & Hr1). apply in_map_iff in Hl as (t1 & <- & Ht1).
  destruct (shrinks_in _ _ _ S Ht1) as (t0 & Ht0 & (EC & LS)). destruct (less_in _ _ _ LS Hr1) as (r0 & Hr0 & (E0 & _)).
  assert (t0 = t) by (apply (owner w t0 t r0 r); auto; congruence). subst t0. exists t1, r1. split; [|auto].
  apply find_unique; [|exact Ht1|unfold t_name; now rewrite EC]. unfold distinct_names. rewrite (shrinks_names _ _ S). exact N.
Qed.
Definition dealt (w : world) (t : task) (r : run) (w' : world) : Prop :=
  stopped w' (rn_uid r) /\ (got (t_name t) (rn_uid r) w w' \/ ~ live_in w' (rn_uid r)).
Lemma if_alive_deals w w' t r : distinct_names w -> distinct_runs w -> In t (w_tasks w) -> In r (t_stack t) ->
  terminate_if_alive orc cf (t_name t) w = (w', Returns tt) -> dealt w t r w'.
Proof using Type.
  intros N D Ht Hr H.
  assert (S : shrinks w w') by (eapply steps_eq; [|exact H]; apply (steps_terminate_if_alive C _ _ HT)).
  unfold terminate_if_alive in H. apply bind_returns in H as (w1 & t1 & E & H). apply get_task_returns in E as (-> & F).
  assert (t1 = t) by (pose proof (find_unique w (t_name t) t N Ht eq_refl); congruence). subst t1.
  destruct (is_alive t) eqn:A.
  - destruct (all_stops orc cf (t_name t) w w' t D F H) as [K _]. destruct (K r Hr). split; auto.
  - inversion H; subst. assert (X : ~ live_in w' (rn_uid r)).
    { intros L. destruct (live_task w' w' t r N D Ht Hr (c_refl _ _ C w') L) as (t1 & r1 & F1 & Hr1 & _ & L1).
      assert (t1 = t) by congruence. subst t1. unfold is_alive in A. rewrite <- not_true_iff_false in A. apply A. apply existsb_exists. exists r1. split; [exact Hr1|exact L1]. }
    split; [now apply dead_stopped|now right].
Qed.
Lemma dealt_trans w w1 w' t r : dealt w t r w1 -> shrinks w1 w' -> grows w1 w' -> dealt w t r w'.
Proof using Type.
  intros [A B] S Gr. split; [eapply shrinks_stopped; eassumption|]. destruct B as [B|B].
  - left. eapply got_l; eassumption.
  - right. intros L. apply B. eapply shrinks_live; eassumption.
Qed.
Lemma each_deals ns : forall w w' t r, distinct_names w -> distinct_runs w -> In t (w_tasks w) -> In r (t_stack t) -> In (t_name t) ns ->
  for_each (terminate_if_alive orc cf) ns w = (w', Returns tt) -> dealt w t r w'.
Proof using Type.
  induction ns as [|n ns IH]; intros w w' t r N D Ht Hr Hn H; [destruct Hn|]. cbn [for_each] in H.
  apply bind_returns in H as (w1 & [] & E1 & H).
  assert (S1 : shrinks w w1) by (eapply steps_eq; [|exact E1]; apply (steps_terminate_if_alive C _ _ HT)).
  assert (S2 : shrinks w1 w') by (eapply steps_eq; [|exact H]; apply (steps_for_each C), (steps_terminate_if_alive C _ _ HT)).
  assert (G1 : grows w w1) by (eapply steps_eq; [|exact E1]; apply (steps_terminate_if_alive G _ _ HT)).
  assert (G2 : grows w1 w') by (eapply steps_eq; [|exact H]; apply (steps_for_each G), (steps_terminate_if_alive G _ _ HT)).
  destruct (Z.eq_dec (t_name t) n) as [<-|NE].
  - eapply dealt_trans; [eapply if_alive_deals; eassumption|exact S2|exact G2].
  - destruct Hn as [Hn|Hn]; [congruence|].
    destruct (in_dec Nat.eq_dec (rn_uid r) (map rn_uid (filter live (tracked w1)))) as [L|L].
    + apply in_map_iff in L as (x & Ex & Hx). apply filter_In in Hx as [Hx Lx].
      destruct (live_task w w1 t r N D Ht Hr S1) as (t1 & r1 & F1 & Hr1 & E & L1'); [exists x; auto|].
      apply find_some in F1 as [Ht1 F1]. apply Z.eqb_eq in F1.
      assert (K : dealt w1 t1 r1 w').
      { apply IH; auto; [unfold distinct_names; rewrite (shrinks_names _ _ S1); exact N|eapply shrinks_distinct; eassumption|now rewrite F1]. }
      destruct K as [K1 K2]. unfold dealt. rewrite E in K1, K2. rewrite F1 in K2. split; [exact K1|].
      destruct K2 as [K2|K2]; [left; eapply got_r; eassumption|now right].
    + assert (X : ~ live_in w1 (rn_uid r)).
      { intros (x & Hx & Ex & Lx). apply L. apply in_map_iff. exists x. split; [exact Ex|]. apply filter_In. now split. }
      assert (X' : ~ live_in w' (rn_uid r)) by (intros Y; apply X; eapply shrinks_live; eassumption).
      split; [now apply dead_stopped|now right].
Qed.
Lemma everything_deals w w' t r : distinct_names w -> distinct_runs w -> In t (w_tasks w) -> In r (t_stack t) ->
  terminate_everything orc cf w = (w', Returns tt) -> dealt w t r w'.
Proof using Type.
  intros N D Ht Hr H. unfold terminate_everything in H. apply bind_returns in H as (w1 & ns & E & H). inversion E; subst.
  eapply each_deals; try eassumption. apply in_map. eapply Permutation_in; [apply by_priority_spec|exact Ht].
Qed.
Lemma instant_terminates fuel x w w' evs t r : distinct_names w -> distinct_runs w ->
  cf_instant cf = true \/ w_force w = true \/ erroneous x ->
  shut_down_tasks orc cf fuel x w = (w', Returns tt) -> happened w w' evs -> In t (w_tasks w) -> In r (t_stack t) ->
  stopped w' (rn_uid r) /\ (In (EvTerminate (t_name t) (rn_uid r)) evs \/ ~ live_in w' (rn_uid r)).
Proof using Type.
  intros N D HI H He Ht Hr. destruct fuel as [|fuel]; cbn [shut_down_tasks] in H; [discriminate H|].
  unfold mbind at 1, get at 1 in H. cbn beta iota in H.
  assert (K : negb (cf_instant cf) && gentle x && negb (w_force w) = false).
  { destruct HI as [-> | [-> | [H1 H2]]]; [reflexivity|now rewrite andb_false_r|].
    destruct (gentle x) eqn:Gx; [exfalso|now rewrite andb_false_r]. destruct x as [[]|]; (discriminate Gx || now apply H2 || now apply H1). }
  rewrite K in H. destruct (everything_deals w w' t r N D Ht Hr H) as [A B]. split; [exact A|].
  destruct B as [B|B]; [left; eapply got_in; eassumption|now right].
Qed.
Lemma permanent_terminated w w' evs t r : distinct_names w -> distinct_runs w -> In t (w_tasks w) -> In r (t_stack t) ->
  tc_permanent (t_cfg t) = true -> wait_turn orc cf (t_name t) w = (w', Returns tt) -> happened w w' evs ->
  stopped w' (rn_uid r) /\ In (EvTerminate (t_name t) (rn_uid r)) evs.
Proof using Type.
  intros N D Ht Hr P H He. unfold wait_turn in H. apply bind_returns in H as (w1 & t1 & E & H). apply get_task_returns in E as (-> & F).
  assert (t1 = t) by (pose proof (find_unique w (t_name t) t N Ht eq_refl); congruence). subst t1. rewrite P in H.
  destruct (all_stops orc cf (t_name t) w w' t D F H) as [K _]. destruct (K r Hr). split; [assumption|]. eapply got_in; eassumption.
Qed.
End Shutdown.

(** * Waiting for a run *)
Section Gentle.
Context (orc : oracle) (cf : config) (A B n : Z).
Definition mild (m : move) : Prop :=
  match m with MClock t => A <= t <= B | MTerminate m => m <> n | MShutdown _ => False | _ => True end.
Definition at_ease (w : world) : Prop :=
  A <= w_clock w <= B /\ w_force w = false /\
  forall t, In t (w_tasks w) -> t_name t = n ->
    t_term t = false /\ tc_permanent (t_cfg t) = false /\ tc_shutdown (t_cfg t) = false /\
    tc_timeout (t_cfg t) <> Some 0 /\ B - A <= timeout_of cf t /\ forall r, In r (t_stack t) -> A <= rn_start r.
Definition others (m : Z) (u : nat) : Prop := m <> n.
Definition spares (w w' : world) : Prop := at_ease w -> at_ease w' /\ ends others w w'.
Lemma spares_trans a b c : spares a b -> spares b c -> spares a c.
Proof.
  intros H1 H2 E. destruct (H1 E) as [E1 K1]. destruct (H2 E1) as [E2 K2]. split; [exact E2|eapply ends_trans; eassumption].
Qed.
Lemma spares_frame w w' : w_clock w' = w_clock w -> w_force w' = w_force w -> w_tasks w' = w_tasks w ->
  ends others w w' -> spares w w'.
Proof. intros E1 E2 E3 H E. split; [|exact H]. unfold at_ease. now rewrite E1, E2, E3. Qed.
Lemma spares_map g w : (forall t, t_cfg (g t) = t_cfg t) ->
  (forall t, t_name t = n -> t_term t = false -> t_term (g t) = false) ->
  (forall t, t_name t = n -> (forall r, In r (t_stack t) -> A <= rn_start r) -> forall r, In r (t_stack (g t)) -> A <= rn_start r) ->
  spares w (set_tasks (map g (w_tasks w)) w).
Proof.
  intros H1 H2 H3 (E1 & E2 & E3). split; [|eapply ends_one; [reflexivity|discriminate]].
  split; [exact E1|]. split; [exact E2|]. cbn. intros t' Ht' En. apply in_map_iff in Ht' as (t & <- & Ht).
  unfold t_name in En. rewrite H1 in En. fold (t_name t) in En. destruct (E3 t Ht En) as (F1 & F2 & F3 & F4 & F5 & F6).
  unfold timeout_of in *. rewrite H1. repeat (split; [now auto|]). now apply H3.
Qed.
Lemma spares_on_task m g w : (forall t, t_cfg (g t) = t_cfg t) ->
  (m = n -> forall t, t_term t = false -> t_term (g t) = false) ->
  (m = n -> forall t, (forall r, In r (t_stack t) -> A <= rn_start r) -> forall r, In r (t_stack (g t)) -> A <= rn_start r) ->
  spares w (on_task m g w).
Proof.
  intros H1 H2 H3. apply spares_map; intros t; destruct (Z.eqb_spec (t_name t) m); auto; intros; [eapply H2|eapply H3]; eauto; congruence.
Qed.
Lemma spares_on_run u g w : (forall r, rn_start (g r) = rn_start r) -> spares w (on_run u g w).
Proof.
  intros H. apply spares_map; auto. intros t _ K r Hr. cbn in Hr. apply in_map_iff in Hr as (r0 & <- & Hr0).
  destruct (Nat.eqb _ _); [rewrite H|]; auto.
Qed.
Lemma spares_still : still mild spares.
Proof.
  constructor; intros; try (apply spares_frame; [reflexivity..|]; first [apply ends_refl; reflexivity | eapply ends_one; [reflexivity|discriminate]]);
    try (apply spares_on_task; auto; fail); try (apply spares_on_run; reflexivity).
  - eapply spares_trans; eassumption.
  - intros (E1 & E2 & E3). split; [split; [exact H|split; [exact E2|exact E3]]|apply ends_refl; reflexivity].
  - destruct H.
  - apply spares_trans with (emit (EvRequest n0 p) w).
    + apply spares_frame; try reflexivity. eapply ends_one; [reflexivity|discriminate].
    + apply spares_on_task; auto.
  - cbn in H. apply spares_on_task; auto; intros; congruence.
  - apply spares_on_run. intros r. unfold begin_run. now destruct (is_pending r).
  - apply spares_on_task; auto. intros _ t K r Hr. apply filter_In in Hr as [Hr _]. auto.
  - apply spares_on_task.
    + intros t. unfold drop_exc. now destruct (drop_first_exc _).
    + intros _ t. unfold drop_exc. now destruct (drop_first_exc _).
    + intros _ t K r Hr. unfold drop_exc in Hr. destruct (drop_first_exc (t_stack t)) as [l|] eqn:D; [|auto].
      apply drop_first_less in D. destruct (less_in _ _ _ D Hr) as (r0 & Hr0 & (_ & _ & E & _)). rewrite E. auto.
Qed.
Let C := spares_still.
Lemma spares_start m : m <> n -> start_rel spares spares m (fun _ => True).
Proof.
  intros NE. constructor; [constructor|..]; intros; auto; try (eapply spares_trans; eassumption);
    try (apply spares_on_task; auto; congruence);
    try (apply spares_frame; try reflexivity; eapply ends_one; [reflexivity|discriminate]).
  eapply spares_trans; [apply spares_on_task; [| |]|apply spares_frame; try reflexivity; eapply ends_one; [reflexivity|discriminate]]; auto; congruence.
Qed.
Context (HA : forall k m, In m (o_env orc k) -> mild m) (HE : forall k, o_end orc k = Ok false).
Lemma spares_term m u w : m <> n -> spares w (emit (EvTerminate m u) w).
Proof using Type. intros NE. apply spares_frame; try reflexivity. eapply ends_one; [reflexivity|]. intros m' u' K. inversion K; subst. exact NE. Qed.
Lemma not_late now d rs w : (forall r, In r rs -> now - rn_start r <= d) -> terminate_late orc n now d rs w = (w, Returns tt).
Proof using Type.
  induction rs as [|r rs IH]; intros H; cbn [terminate_late]; [reflexivity|]. unfold mbind at 1, get at 1. cbn beta iota.
  replace (d <? now - rn_start r) with false by (specialize (H r (or_introl eq_refl)); lia). rewrite andb_false_r.
  unfold mbind at 1, ret at 1. apply IH. intros; apply H; now right.
Qed.
Lemma spares_wait_turn m : steps spares (wait_turn orc cf m).
Proof using HA HE.
  destruct (Z.eq_dec m n) as [-> | NE]; [|apply (one_wait_turn C _ _ HA); intros; now apply spares_term].
  intros w E. pose proof E as (E1 & E2 & E3). assert (R0 : at_ease w /\ ends others w w) by (split; [exact E|apply ends_refl; reflexivity]).
  destruct (find_task n w) as [t|] eqn:F.
  - apply find_some in F as F'. destruct F' as [Ht En]. apply Z.eqb_eq in En. destruct (E3 t Ht En) as (F1 & F2 & F3 & F4 & F5 & F6).
    assert (X : wait_turn orc cf n w = (bump w, Returns tt)).
    { unfold wait_turn, mbind at 1, get_task. rewrite F, F2, (check_eq orc cf n w t F), HE, F1, F2. apply not_late.
      intros r Hr. specialize (F6 r Hr). rewrite timeout_spec by exact F4. lia. }
    rewrite X. apply (c_bump _ _ C w E).
  - assert (X : wait_turn orc cf n w = (w, Raises KeyError)) by (unfold wait_turn, mbind at 1, get_task; now rewrite F).
    rewrite X. exact R0.
Qed.
Lemma spares_wait fuel : steps spares (wait_for_finish orc cf fuel).
Proof using HA HE.
  induction fuel as [|fuel IH]; cbn [wait_for_finish]; st C. destruct (_ =? _); st C;
    [apply (steps_env C _ HA)|apply (steps_handle_logs C _ _ HA)|apply (steps_tasks C)|apply (steps_for_each C), spares_wait_turn|exact IH].
Qed.
Lemma spares_special m fuel : m <> n -> steps spares (run_special orc cf fuel m).
Proof using HA.
  intros NE. unfold run_special. apply (steps_bind C); [st C|intros t]. apply (steps_bind C).
  - destruct (_ && _); st C; [apply spares_frame; try reflexivity; eapply ends_one; [reflexivity|discriminate]|]. apply spares_on_task; auto.
  - intros []. apply (steps_guarded C m (spares_start m NE) orc cf HA fuel).
Qed.
Lemma spares_shutdown_task fuel m : steps spares (shutdown_task orc cf fuel m).
Proof using HA.
  intros w E. pose proof (c_refl _ _ C w E) as R0. destruct (find_task m w) as [t|] eqn:F.
  - assert (X : shutdown_task orc cf fuel m w = (if tc_shutdown (t_cfg t) then run_special orc cf fuel m else ret tt) w)
      by (unfold shutdown_task, mbind at 1, get_task; now rewrite F).
    rewrite X. destruct (tc_shutdown (t_cfg t)) eqn:D; [|exact R0]. destruct (Z.eq_dec m n) as [-> | NE]; [|now apply spares_special].
    apply find_some in F as [Ht En]. apply Z.eqb_eq in En. destruct E as (_ & _ & E). destruct (E t Ht En) as (_ & _ & Y & _). congruence.
  - assert (X : shutdown_task orc cf fuel m w = (w, Raises KeyError)) by (unfold shutdown_task, mbind at 1, get_task; now rewrite F).
    rewrite X. exact R0.
Qed.
Lemma spares_down_tasks fuel x w w' : cf_instant cf = false -> gentle x = true ->
  shut_down_tasks orc cf fuel x w = (w', Returns tt) -> spares w w'.
Proof using HA HE.
  intros HI HG H E. destruct fuel as [|fuel]; cbn [shut_down_tasks] in H; [discriminate H|].
  unfold mbind at 1, get at 1 in H. cbn beta iota in H. destruct E as (E1 & E2 & E3). rewrite HI, HG, E2 in H. cbn [negb andb] in H.
  apply bind_returns in H as (w1 & r & E4 & H). unfold attempt in E4. pose proof (spares_wait fuel w) as S.
  destruct (wait_for_finish orc cf fuel w) as [w2 [[]|e|]]; inversion E4; subst; cbn [fst] in S.
  - inversion H; subst. exact (S (conj E1 (conj E2 E3))).
  - destruct (is_exception e); [|discriminate H]. apply bind_returns in H as (? & ? & _ & H). discriminate H.
Qed.
Lemma spares_shut_down fuel x w w' : cf_instant cf = false -> gentle x = true ->
  shut_down orc cf fuel x w = (w', Returns tt) -> spares w w'.
Proof using HA HE.
  intros HI HG H. unfold shut_down in H. apply bind_returns in H as (w1 & [] & E1 & H). injection E1 as <-.
  apply bind_returns in H as (w2 & [] & E2 & H).
  apply finally_inv in H as (w3 & o3 & o4 & H & _ & H4 & _ & K); [|discriminate]. destruct (K tt eq_refl) as [-> ->].
  apply finally_inv in H as (w5 & o5 & o6 & H & _ & H6 & _ & K'); [|discriminate]. destruct (K' tt eq_refl) as [-> ->].
  apply finally_inv in H as (w7 & o7 & o8 & H & _ & H8 & _ & K''); [|discriminate]. destruct (K'' tt eq_refl) as [-> ->].
  apply spares_trans with (emit EvShutdown w); [apply spares_frame; try reflexivity; eapply ends_one; [reflexivity|discriminate]|].
  apply spares_trans with w2; [eapply steps_eq; [|exact E2]; apply (steps_hook C)|].
  apply spares_trans with w7; [eapply steps_eq; [|exact H]; unfold run_shutdown_tasks; st C; [apply (steps_tasks C)|]; apply (steps_for_each C), spares_shutdown_task|].
  apply spares_trans with w5; [now apply (spares_down_tasks fuel x)|].
  apply spares_trans with w3; [|eapply steps_eq; [|exact H4]; apply (steps_hook C)].
  eapply steps_eq; [|exact H6]. st C; [apply (steps_wait_task_alive C _ HA)|apply (steps_handle_logs C _ _ HA)|apply (steps_check_thread_errors C)].
Qed.
End Gentle.
Lemma gentle_waits orc cf fuel x w w' A B n u evs : unhurried orc cf A B n w -> cf_instant cf = false -> ~ erroneous x ->
  shut_down orc cf fuel x w = (w', Returns tt) -> happened w w' evs -> ~ In (EvTerminate n u) evs.
Proof.
  intros (HA & HE & H1 & H2 & H3) HI HX H He Hin.
  assert (HG : gentle x = true).
  { destruct x as [e|]; [|reflexivity]. destruct e; try reflexivity; destruct HX; split; discriminate. }
  destruct (spares_shut_down orc cf A B n HA HE fuel x w w' HI HG H (conj H1 (conj H2 H3))) as [_ K].
  now apply (ends_in _ _ _ _ _ _ K He) in Hin.
Qed.
